(** Properties of alarms: C36-C42, C58, C60, C61.  A history is the list of
    observations of AlarmModel.v, newest first; the notions used in the
    statements are those of AlarmSpec.v, and for the bytes of frames those of
    AlarmParse.v. *)
From Coq Require Import List ZArith Arith Bool Lia Permutation.
From Verif Require Import Base BlockModel BlockReadLemmas AlarmModel AlarmSpec AlarmRing AlarmLemmas AlarmInv
  AlarmParse AlarmDeaf.
Import ListNotations.
Set Implicit Arguments.
Open Scope nat_scope.

(** The history after the inputs [es], for a capacity of the queues, a maximal
    payload and the answers [ora] of the operating system. *)
Definition hist (cap maxp : nat) (ora : nat -> answer) (es : list input) : list obs :=
  s_tr (run cap maxp ora es st0).

Lemma always_split : forall P tr, always P tr -> forall n o r, tr = n ++ o :: r -> P o r.
Proof.
  intros P tr. induction tr as [|a t IH]; intros H n o r E; [destruct n; discriminate|].
  destruct H as (H1 & H2). destruct n as [|b n]; cbn in E; injection E as -> ->; auto. eapply IH; eauto.
Qed.

Lemma hist_good : forall cap maxp ora es, 0 < cap -> Forall input_ok es ->
  always (good cap) (hist cap maxp ora es).
Proof. intros. unfold hist. eapply inv_good. now apply reach_inv. Qed.

(** ** C36: queues *)

Inductive qop (A : Type) := QPost (x : A) | QFetch | QReset.
Inductive qres (A : Type) := RPost (ok : bool) | RFetch (x : option A) | RReset (l : list A).
Arguments QFetch {A}. Arguments QReset {A}. Arguments RPost {A}.

Definition ring_op (A : Type) (cap : nat) (o : qop A) (q : ring A) : qres A * ring A :=
  match o with
  | QPost x => let '(ok, q) := ring_post cap x q in (RPost ok, q)
  | QFetch => let '(x, q) := ring_fetch cap q in (RFetch x, q)
  | QReset => let '(q, l) := ring_reset cap q in (RReset l, q)
  end.
Fixpoint ring_ops (A : Type) (cap : nat) (os : list (qop A)) (q : ring A) : list (qres A) :=
  match os with
  | [] => []
  | o :: t => let '(r, q) := ring_op cap o q in r :: ring_ops cap t q
  end.

(** What they should do: a list of at most [cap] items, oldest first. *)
Definition list_op (A : Type) (cap : nat) (o : qop A) (l : list A) : qres A * list A :=
  match o with
  | QPost x => if length l <? cap then (RPost true, l ++ [x]) else (RPost false, l)
  | QFetch => match l with [] => (RFetch None, []) | x :: t => (RFetch (Some x), t) end
  | QReset => (RReset l, [])
  end.
Fixpoint list_ops (A : Type) (cap : nat) (os : list (qop A)) (l : list A) : list (qres A) :=
  match os with
  | [] => []
  | o :: t => let '(r, l) := list_op cap o l in r :: list_ops cap t l
  end.
(** The same answer; the items given back by a reset may come in another
    order. *)
Definition same_res (A : Type) (a b : qres A) : Prop :=
  match a, b with
  | RReset l, RReset k => Permutation l k
  | _, _ => a = b
  end.

Theorem C36_queue : forall (A : Type) (cap : nat) (os : list (qop A)), 0 < cap ->
  Forall2 (@same_res A) (ring_ops cap os (ring_create ring0)) (list_ops cap os []).
Proof.
  intros A cap os Hc.
  assert (G : forall os q l, holds cap q l -> Forall2 (@same_res A) (ring_ops cap os q) (list_ops cap os l)).
  { clear os. induction os as [|o os IH]; intros q l H; cbn [ring_ops list_ops]; [constructor|].
    destruct o as [x| |]; cbn [ring_op list_op].
    - destruct (Nat.ltb_spec (length l) cap) as [L|L].
      + destruct (post_room Hc x H L) as (q' & -> & H'). constructor; [reflexivity|auto].
      + rewrite (post_full Hc x H L). constructor; [reflexivity|auto].
    - destruct l as [|x l].
      + rewrite (fetch_empty H). constructor; [reflexivity|auto].
      + destruct (fetch_cons Hc H) as (q' & -> & H'). constructor; [reflexivity|auto].
    - unfold ring_reset. rewrite (holds_avail H). constructor; [cbn; now apply holds_items|].
      apply IH. now apply holds_new. }
  apply G. now apply (@holds_new A cap).
Qed.

(** A queue that is closed takes and gives nothing. *)
Theorem C36_closed : forall (A : Type) (cap : nat) (x : A) (q : ring A),
  fst (ring_post cap x (ring_destroy q)) = false /\ fst (ring_fetch cap (ring_destroy q)) = None.
Proof. intros. split; reflexivity. Qed.

(** The alarms that left the queue are, in order, the first of the accepted
    ones; at most [cap] wait. *)
Theorem C36_order : forall cap maxp ora es p, 0 < cap -> Forall input_ok es ->
  exists w, accepted p (hist cap maxp ora es) = handed p (hist cap maxp ora es) ++ w /\ length w <= cap.
Proof.
  intros cap maxp ora es p Hc F. pose proof (hist_good maxp ora Hc F) as G.
  induction (hist cap maxp ora es) as [|o t IH]; [exists []; cbn; split; auto; lia|].
  destruct G as (G & Gt). destruct (IH Gt) as (w & E & L). clear IH.
  assert (Sub : forall c, (forall a n, c = FNotify a n -> exists w, accepted p t = handed p t ++ a :: w) ->
    exists w', accepted p t = (handed p t ++ notif c) ++ w' /\ length w' <= cap).
  { intros c H. destruct c; cbn [notif]; rewrite ?app_nil_r; eauto.
    destruct (H _ _ eq_refl) as (w' & E'). exists w'. rewrite <- app_assoc. split; auto.
    assert (X : handed p t ++ w = handed p t ++ a :: w') by congruence. apply app_inv_head in X. subst w. cbn in L. lia. }
  destruct o; cbn [accepted handed]; eauto; try (exists []; cbn; split; auto; lia).
  - destruct (same p0 p) eqn:Es; rewrite ?app_nil_r; eauto. apply eqb_prop in Es. subst p0. cbn in G.
    exists (w ++ [a]). rewrite E, <- app_assoc. split; auto. rewrite E, app_length in G. rewrite app_length. cbn. lia.
  - destruct (same p0 p) eqn:Es; rewrite ?app_nil_r; eauto. apply eqb_prop in Es. subst p0. cbn in G.
    apply Sub. intros a n X. eapply G; eauto.
  - destruct (same p0 p) eqn:Es; rewrite ?app_nil_r; eauto. apply eqb_prop in Es. subst p0. cbn in G.
    apply Sub. intros a n X. eapply G; eauto.
  - destruct (same p0 p) eqn:Es; rewrite ?app_nil_r; eauto. apply eqb_prop in Es. subst p0. cbn in G.
    apply Sub. intros a n X. eapply G; eauto.
Qed.

(** pf_alarm_send_alarm returns 0 exactly if the connection is established,
    alarms are enabled, the payload is not too long, and fewer than [cap]
    accepted alarms wait. *)
Theorem C36_accept : forall cap maxp ora es p a, 0 < cap -> Forall input_ok es ->
  let s := run cap maxp ora es st0 in
  s_crash s = false ->
  s_tr (step cap maxp ora (XAlarm p a) s) =
    (if s_live s && s_enable s && (length (al_data a) <=? maxp) && (length (al_data a) <=? s_maxlen s) &&
        (length (accepted p (s_tr s)) <? length (handed p (s_tr s)) + cap)
     then AAccept p a else ARefuse p a) :: s_tr s.
Proof.
  intros cap maxp ora es p a Hc F s Cr. unfold step. rewrite Cr.
  destruct (s_live s) eqn:El; [|reflexivity]. cbn [andb].
  assert (I : inv cap [] s) by now apply reach_inv.
  destruct I as [(rl & sl & L)|[D|C]]; [|rewrite (d_live D) in El; discriminate|rewrite (c_crash C) in Cr; discriminate].
  unfold send_alarm. destruct (s_enable s); cbn [negb orb andb]; [|reflexivity].
  rewrite (Nat.leb_antisym maxp), (Nat.leb_antisym (s_maxlen s)).
  destruct (maxp <? length (al_data a)); cbn [orb negb andb]; [reflexivity|].
  destruct (s_maxlen s <? length (al_data a)); cbn [orb negb andb]; [reflexivity|].
  pose proof (v_okp L p) as K. rewrite (k_acc K), app_length.
  destruct (Nat.ltb_spec (length (handed p (s_tr s)) + length (sl p)) (length (handed p (s_tr s)) + cap)) as [R|R].
  - destruct (post_room Hc a (k_sq K) ltac:(lia)) as (q & -> & _). reflexivity.
  - rewrite (post_full Hc a (k_sq K) ltac:(lia)). reflexivity.
Qed.

(** No buffer is freed twice or without having been obtained, and without a
    connection no buffer is kept. *)
Theorem C36_buffers : forall cap maxp ora es b, 0 < cap -> Forall input_ok es ->
  let s := run cap maxp ora es st0 in s_crash s = false ->
  freed b (s_tr s) <= got b (s_tr s) <= 1 /\
  (s_live s = false -> freed b (s_tr s) = got b (s_tr s)).
Proof.
  intros cap maxp ora es b Hc F s Cr.
  assert (I : inv cap [] s) by now apply reach_inv.
  destruct I as [(rl & sl & L)|[D|C]].
  - destruct (v_buf L) as (B1 & B2 & _). specialize (B1 b). specialize (B2 b). split; [lia|].
    rewrite (v_live L). discriminate.
  - destruct (d_buf D) as (B1 & B2 & _). specialize (B1 b). specialize (B2 b). cbn in B1. split; [lia|]. intros _.
    unfold occ in B1. cbn in B1. lia.
  - rewrite (c_crash C) in Cr. discriminate.
Qed.

(** ** C37: one alarm at a time *)

Theorem C37_next_partial : forall cap maxp ora es p newer older f b ok a n, 0 < cap -> Forall input_ok es ->
  hist cap maxp ora es = newer ++ ATx p f b ok :: older ->
  f_cont f = FNotify a n -> clean p older = true ->
  notified p older = confirmed p older.
Proof.
  intros cap maxp ora es p newer older f b ok a n Hc F E Ef C.
  pose proof (always_split _ (hist_good maxp ora Hc F) _ _ _ E) as G. cbn in G.
  destruct G as (_ & _ & G). now apply (G a n).
Qed.

Theorem C37_one_partial : forall cap maxp ora es p, 0 < cap -> Forall input_ok es ->
  clean p (hist cap maxp ora es) = true ->
  notified p (hist cap maxp ora es) <= confirmed p (hist cap maxp ora es) + 1.
Proof.
  intros cap maxp ora es p Hc F. pose proof (hist_good maxp ora Hc F) as G.
  induction (hist cap maxp ora es) as [|o t IH]; [cbn; lia|].
  destruct G as (G & Gt). specialize (IH Gt). destruct o; cbn; auto; try lia.
  - intros C. apply andb_true_iff in C. destruct C as (_ & C).
    destruct (same p0 p) eqn:Es; [|cbn; auto]. apply eqb_prop in Es. subst p0.
    destruct (f_cont f) eqn:Ef; cbn; auto. cbn in G. destruct G as (_ & _ & G). destruct (G _ _ Ef) as (_ & G').
    rewrite (G' C). lia.
  - intros C. apply andb_true_iff in C. destruct C as (_ & C). auto.
  - intros C. specialize (IH C). lia.
  - intros C. apply andb_true_iff in C. destruct C as (_ & C). auto.
Qed.

(** An alarm counts as confirmed when an alarm acknowledge with the expected
    number was received and has been transport-acknowledged. *)
Theorem C37_confirmed : forall cap maxp ora es p newer older c, 0 < cap -> Forall input_ok es ->
  hist cap maxp ora es = newer ++ ACnf p c :: older ->
  exists m t n k b f r, In (AIn p m) older /\ parse p m = Ok (PData t n k (BAck c)) /\
    n = canon (length (taken p r)) /\
    older = AFree b :: ATx p f b true :: AAlloc b :: ATaken p n :: r.
Proof.
  intros cap maxp ora es p newer older c Hc F E.
  pose proof (always_split _ (hist_good maxp ora Hc F) _ _ _ E) as G. cbn in G.
  destruct G as (m & t & n & k & H1 & H2 & b & f & r & H3). exists m, t, n, k, b, f, r.
  repeat split; auto; try tauto.
  destruct H3 as (-> & _).
  pose proof (always_split _ (hist_good maxp ora Hc F) (newer ++ ACnf p c :: AFree b :: ATx p f b true :: AAlloc b :: nil) (ATaken p n) r) as G2.
  rewrite E in G2. rewrite <- app_assoc in G2. exact (G2 eq_refl).
Qed.

(** Frames for the examples: two bytes, then the fixed part at position 2
    (destination, source, version 1 and type, flags, number, acknowledged
    number), the length of the rest and the rest. *)
Definition ex_bytes (ty flags send ack : Z) (rest : list Z) : list Z :=
  ([254; 1; 0; 1; 0; 2; 16 + ty; flags; send / 256; send mod 256; ack / 256; ack mod 256] ++
   [Z.of_nat (length rest) / 256; Z.of_nat (length rest) mod 256])%Z ++ rest.
Definition ex_tack (ack : Z) : list Z := ex_bytes 3 1 65534 ack [].
(** An alarm notification, an alarm acknowledge with a PNIO status. *)
Definition ex_rest (bt : Z) (tail : list Z) : list Z :=
  ([bt / 256; bt mod 256; 0; 42; 1; 0;  0; 2;  0; 0; 0; 0;  0; 1;  0; 1] ++ tail)%Z.
Definition ex_notif (p : bool) (send : Z) (payload : list Z) : list Z :=
  ex_bytes 1 17 send 65534 (ex_rest (if p then 1 else 2)%Z ([0; 0; 0; 7; 0; 0; 0; 8; 0; 0; 0; 9] ++ payload)%Z).
Definition ex_ack (p : bool) (send ack : Z) (status : list Z) : list Z :=
  ex_bytes 1 17 send ack (ex_rest (if p then 32769 else 32770)%Z ([0; 0] ++ status)%Z).
Definition ex_alarm (n : Z) : alarm := mkAlarm 2 0 1 1 7 8 9 [n; n].
Definition all_ok : nat -> answer := fun _ => mkAnswer true true true.

Definition up : list input := [XActivate 3 1 200; XEnable true].

(** A timer that cannot be started: the first alarm is sent and transport-
    acknowledged, but not recorded as waiting for its acknowledge, and the next
    one is sent too. *)
Theorem C37_refuted : exists cap maxp ora es a1 n1 b1 s1 k1 a2 n2 b2 s2 k2, 0 < cap /\ Forall input_ok es /\
  let h := hist cap maxp ora es in
  In (ATx true (mkFrame (FNotify a1 n1) true s1 k1) b1 true) h /\
  In (ATx true (mkFrame (FNotify a2 n2) true s2 k2) b2 true) h /\ a1 <> a2 /\
  confirmed true h = 0 /\ notified true h = 2.
Proof.
  exists 5, 200, (fun n => mkAnswer true true (negb (n =? 1))),
    (up ++ [XAlarm true (ex_alarm 1); XAlarm true (ex_alarm 2); XPeriodic; XFrame true (ex_tack 65535) 0; XPeriodic]),
    (ex_alarm 1), 0%Z, 0, 65535%Z, 65534%Z, (ex_alarm 2), 1%Z, 3, 0%Z, 65534%Z.
  split; [lia|]. split.
  - repeat constructor; cbn; lia.
  - cbv zeta. split; [vm_compute; auto 20|]. split; [vm_compute; auto 20|]. split; [discriminate|].
    split; vm_compute; reflexivity.
Qed.

(** ** C38: incoming alarms *)

(** The numbers of the frames that are taken: the expected ones, each once. *)
Theorem C38_numbers : forall cap maxp ora es p, 0 < cap -> Forall input_ok es ->
  let l := taken p (hist cap maxp ora es) in l = map canon (seq 0 (length l)).
Proof.
  intros cap maxp ora es p Hc F. pose proof (hist_good maxp ora Hc F) as G. cbv zeta.
  induction (hist cap maxp ora es) as [|o t IH]; [reflexivity|].
  destruct G as (G & Gt). specialize (IH Gt). destruct o; cbn [taken]; auto.
  destruct (same p0 p) eqn:Es; rewrite ?app_nil_r; auto. apply eqb_prop in Es. subst p0. cbn in G.
  rewrite app_length. cbn [length]. rewrite Nat.add_1_r, seq_S, map_app. cbn [map]. rewrite <- IH. now rewrite G.
Qed.

(** Every indicated alarm is a complete notification received in the buffer
    given to the application, at a time when the application owes no
    acknowledge, and directly before that its number was taken and
    transport-acknowledged. *)
Theorem C38_indicated : forall cap maxp ora es p newer older d usi len pos b, 0 < cap -> Forall input_ok es ->
  hist cap maxp ora es = newer ++ AInd p d usi len pos b :: older ->
  owed p older = Nothing /\
  exists m t n k c f r, In (AIn p m) older /\ g_buf m = b /\
    notification p (g_bytes m) (u16 (g_idpos m + 2)) t n k d usi len pos /\
    older = AFree c :: ATx p f c true :: AAlloc c :: ATaken p n :: r /\ f_cont f = FTack /\ f_ack f = n.
Proof.
  intros cap maxp ora es p newer older d usi len pos b Hc F E.
  pose proof (always_split _ (hist_good maxp ora Hc F) _ _ _ E) as G. cbn in G.
  destruct G as (G0 & m & t & n & k & H1 & H2 & H3 & H4 & c & f & r & -> & H6). split; auto.
  exists m, t, n, k, c, f, r. split; [auto|]. split; [auto|]. split; [now apply parse_notify|].
  split; [reflexivity|]. split; [auto|].
  pose proof (always_split _ (hist_good maxp ora Hc F) (newer ++ AInd p d usi len pos b :: AFree c :: nil) (ATx p f c true) (AAlloc c :: ATaken p n :: r)) as G2.
  rewrite E in G2. rewrite <- app_assoc in G2. specialize (G2 eq_refl). cbn in G2. destruct G2 as (_ & G2 & _). rewrite G2.
  pose proof (always_split _ (hist_good maxp ora Hc F) (newer ++ AInd p d usi len pos b :: AFree c :: ATx p f c true :: AAlloc c :: nil) (ATaken p n) r) as G3.
  rewrite E in G3. rewrite <- app_assoc in G3. specialize (G3 eq_refl). cbn in G3.
  rewrite same_refl, app_length. cbn. rewrite Nat.add_1_r. cbn. now rewrite G3.
Qed.

(** Call-backs for received alarms and alarm acknowledges. *)
Fixpoint delivered (p : bool) (tr : list obs) : nat :=
  match tr with
  | [] | AActivate _ _ _ :: _ => 0
  | AInd q _ _ _ _ _ :: t | ACnf q _ :: t => (if same q p then 1 else 0) + delivered p t
  | _ :: t => delivered p t
  end.

(** Not more of them than numbers taken. *)
Theorem C38_once : forall cap maxp ora es p, 0 < cap -> Forall input_ok es ->
  delivered p (hist cap maxp ora es) <= length (taken p (hist cap maxp ora es)).
Proof.
  intros cap maxp ora es p Hc F. pose proof (hist_good maxp ora Hc F) as G.
  remember (length (hist cap maxp ora es)) as n eqn:En.
  assert (H : forall n tr, length tr <= n -> always (good cap) tr -> delivered p tr <= length (taken p tr)).
  { clear. induction n as [|n IH]; intros tr L G; [destruct tr; [auto|cbn in L; lia]|].
    destruct tr as [|o t]; [auto|]. destruct G as (G & Gt). cbn in L.
    assert (IHt : delivered p t <= length (taken p t)) by (apply IH; [lia|auto]).
    assert (Two : forall q k, just_taken q k t -> (if same q p then 1 else 0) + delivered p t <= length (taken p t)).
    { intros q k (b & f & r & -> & _). cbn in Gt, L. cbn. rewrite app_length.
      assert (delivered p r <= length (taken p r)) by (apply IH; [lia|tauto]).
      destruct (same q p); cbn; lia. }
    destruct o; cbn [delivered taken]; auto; try lia.
    - destruct G as (_ & m & t1 & n1 & k1 & _ & _ & _ & _ & J). eauto.
    - destruct G as (m & t1 & n1 & k1 & _ & _ & J). eauto.
    - rewrite app_length. lia. }
  eapply H; eauto.
Qed.

Lemma tack_new : forall p ack s, exists new, s_tr (tack_ind p ack s) = new ++ s_tr s /\
  forall o, In o new -> match o with ATack _ _ | AFree _ | AAckCnf _ => True | _ => False end.
Proof.
  intros p ack s. unfold tack_ind, cnf_pos, free_rta.
  destruct (ms (s_px s p)); try (exists []; split; [reflexivity|contradiction]).
  destruct (ack =? send_seq (s_px s p))%Z; try (exists []; split; [reflexivity|contradiction]).
  cbn. rewrite ?same_refl; cbn. destruct (rta (s_px s p)) as [[b f]|]; cbn; rewrite ?same_refl; cbn;
    destruct (lr (s_px s p)); cbn;
    first [exists [AAckCnf p; AFree b; ATack p ack]; split; [reflexivity|]; cbn; intros o H; repeat destruct H as [<-|H]; auto; contradiction
          |exists [AAckCnf p; ATack p ack]; split; [reflexivity|]; cbn; intros o H; repeat destruct H as [<-|H]; auto; contradiction
          |exists [AFree b; ATack p ack]; split; [reflexivity|]; cbn; intros o H; repeat destruct H as [<-|H]; auto; contradiction
          |exists [ATack p ack]; split; [reflexivity|]; cbn; intros o H; repeat destruct H as [<-|H]; auto; contradiction].
Qed.

Lemma plain_tr : forall ora p f s, f_tack f = false ->
  s_tr (snd (a_data_req ora p f s)) =
    (if o_alloc (ora (s_next s)) then [AFree (s_next s); ATx p f (s_next s) (o_send (ora (s_next s))); AAlloc (s_next s)]
     else [ALost p f]) ++ s_tr s.
Proof. intros ora p f s T. unfold a_data_req. destruct (o_alloc (ora (s_next s))); [rewrite T|]; reflexivity. Qed.

(** The observation that a frame is sent without waiting for a transport
    acknowledge, or that there is no buffer for it. *)
Definition answers (p : bool) (c : content) (ack : Z) (o : obs) : Prop :=
  match o with
  | ATx q f _ _ | ALost q f => q = p /\ f_cont f = c /\ f_ack f = ack
  | _ => False
  end.
Definition quiet (o : obs) : Prop :=
  match o with AInd _ _ _ _ _ _ | ACnf _ _ | ATaken _ _ | AAbort _ | ACrash => False | _ => True end.

(** In a connection whose receiver is open: the frame that was taken last, when
    it comes again, is transport-acknowledged with its number and not delivered
    again; any other number that is not the expected one gets a negative
    acknowledge and is not delivered. *)
Theorem C38_repeated : forall cap maxp ora es p m send ack y, 0 < cap -> Forall input_ok es ->
  let s := run cap maxp ora es st0 in
  s_live s = true -> s_crash s = false -> mr (s_px s p) = ROpen ->
  parse p m = Ok (PData true send ack y) ->
  send <> canon (length (taken p (s_tr s))) ->
  let s' := snd (handle_msg cap ora p m s) in
  exists new, s_tr s' = new ++ s_tr s /\ (forall o, In o new -> quiet o) /\
    exists o, In o new /\
      answers p (if (send =? before (length (taken p (s_tr s))))%Z then FTack else FNack)
              (before (length (taken p (s_tr s)))) o.
Proof.
  intros cap maxp ora es p m send ack y Hc F s El Cr Em Hp Hs s'.
  assert (I : inv cap [] s) by now apply reach_inv.
  destruct I as [(rl & sl & L)|[D|C]]; [|rewrite (d_live D) in El; discriminate|rewrite (c_crash C) in Cr; discriminate].
  pose proof (v_okp L p) as K.
  unfold s', handle_msg. rewrite Hp. cbn [handle_pdu]. unfold data_ind. rewrite Em. cbn [negb].
  destruct (Z.eqb_spec send (exp_seq (s_px s p))) as [X|_]; [rewrite (k_exp K) in X; contradiction|].
  rewrite (k_exp_o K).
  destruct (send =? before (length (taken p (s_tr s))))%Z.
  - destruct (tack_new p ack s) as (new & T1 & T2). destruct (tack_exp p ack s p) as (_ & X2 & _).
    unfold send_tack. set (s1 := tack_ind p ack s) in *. cbn [snd s_tr emit].
    rewrite plain_tr by reflexivity. rewrite T1, X2, (k_exp_o K).
    eexists (AFree (g_buf m) :: _ ++ new). split; [rewrite <- app_comm_cons, <- app_assoc; reflexivity|]. split.
    + intros o [<-|H]; [exact Logic.I|]. apply in_app_or in H. destruct H as [H|H].
      * destruct (o_alloc _); cbn in H; repeat destruct H as [<-|H]; cbn; auto; contradiction.
      * apply T2 in H. destruct o; cbn; auto.
    + destruct (o_alloc _).
      * eexists. split; [right; apply in_or_app; left; right; left; reflexivity|]. cbn. auto.
      * eexists. split; [right; apply in_or_app; left; left; reflexivity|]. cbn. auto.
  - unfold send_nack. cbn [snd s_tr emit]. rewrite plain_tr by reflexivity. rewrite (k_exp_o K).
    eexists (AFree (g_buf m) :: _). split; [rewrite <- app_comm_cons; reflexivity|]. split.
    + intros o [<-|H]; [exact Logic.I|]. destruct (o_alloc _); cbn in H; repeat destruct H as [<-|H]; cbn; auto; contradiction.
    + destruct (o_alloc _).
      * eexists. split; [right; right; left; reflexivity|]. cbn. auto.
      * eexists. split; [right; left; reflexivity|]. cbn. auto.
Qed.

(** A notification, the same again, and one with a wrong number. *)
Example C38_case :
  let es := up ++ [XFrame true (ex_notif true 65535 [5]%Z) 0; XPeriodic] in
  let s := run 5 200 all_ok es st0 in
  Forall input_ok es /\ s_live s = true /\ s_crash s = false /\ mr (s_px s true) = ROpen /\
  delivered true (s_tr s) = 1 /\ taken true (s_tr s) = [65535%Z] /\
  (exists y, parse true (mkMsg 7 (ex_notif true 65535 [5]%Z) 0) = Ok (PData true 65535 65534 y)) /\
  let t := run 5 200 all_ok [XFrame true (ex_notif true 65535 [5]%Z) 0; XFrame true (ex_notif true 9 [5]%Z) 0; XPeriodic] s in
  delivered true (s_tr t) = 1 /\ taken true (s_tr t) = [65535%Z].
Proof.
  split; [repeat constructor; cbn; lia|].
  repeat split; try (vm_compute; reflexivity).
  eexists. vm_compute. reflexivity.
Qed.

Lemma tack_next : forall p ack s, s_next (tack_ind p ack s) = s_next s /\ s_live (tack_ind p ack s) = s_live s.
Proof.
  intros p ack s. unfold tack_ind, cnf_pos, free_rta. destruct (ms (s_px s p)); auto.
  destruct (ack =? send_seq (s_px s p))%Z; auto. cbn. rewrite ?same_refl; cbn.
  destruct (rta (s_px s p)) as [[b f]|]; cbn; rewrite ?same_refl; cbn; destruct (lr (s_px s p)); auto.
Qed.

Lemma tack_lr : forall p ack s, lr (s_px s p) = LNotify -> lr (s_px (tack_ind p ack s) p) = LNotify.
Proof.
  intros p ack s H. unfold tack_ind, cnf_pos, free_rta. destruct (ms (s_px s p)); auto.
  destruct (ack =? send_seq (s_px s p))%Z; auto. cbn. rewrite ?same_refl; cbn.
  destruct (rta (s_px s p)) as [[b f]|]; cbn; rewrite ?same_refl; cbn; rewrite H; cbn; rewrite ?same_refl; cbn; auto.
Qed.

(** A complete notification with the expected number is delivered with its
    content if the application owes no acknowledge and the transport
    acknowledge can be sent. *)
Theorem C38_delivers : forall cap maxp ora es p m n k d usi len pos, 0 < cap -> Forall input_ok es ->
  let s := run cap maxp ora es st0 in
  s_live s = true -> s_crash s = false ->
  (forall c, In c (received p (s_tr s)) -> ~ cut p (g_bytes c) (u16 (g_idpos c + 2))) ->
  frame_wf m -> notification p (g_bytes m) (u16 (g_idpos m + 2)) true n k d usi len pos ->
  n = canon (length (taken p (s_tr s))) -> owed p (s_tr s) = Nothing ->
  o_alloc (ora (s_next s)) = true -> o_send (ora (s_next s)) = true ->
  let s' := snd (handle_msg cap ora p m s) in
  (exists r, s_tr s' = AFree (g_buf m) :: AInd p d usi len pos (g_buf m) :: r) /\
  s_live s' = true.
Proof.
  intros cap maxp ora es p m n k d usi len pos Hc F s El Cr Nc Wf Nf Hn Ow A1 A2 s'.
  assert (I : inv cap [] s) by now apply reach_inv.
  destruct I as [(rl & sl & L)|[D|C]]; [|rewrite (d_live D) in El; discriminate|rewrite (c_crash C) in Cr; discriminate].
  pose proof (v_okp L p) as K.
  assert (Em : mr (s_px s p) = ROpen).
  { destruct (mr (s_px s p)) eqn:M; auto; [now apply (k_mr K) in M|].
    destruct (@hears_reach cap maxp ora es p F Cr M) as (c & H1 & H2). now apply Nc in H1. }
  apply parse_notify in Nf; auto.
  unfold s', handle_msg. rewrite Nf. cbn [handle_pdu]. unfold data_ind. rewrite Em. cbn [negb].
  rewrite Hn, (k_exp K), Z.eqb_refl.
  fold (accept ora p (canon (length (taken p (s_tr s)))) k s).
  destruct (accept ora p (canon (length (taken p (s_tr s)))) k s) as [ok s1] eqn:Ea.
  assert (Hok : ok = true).
  { unfold accept, send_tack, a_data_req in Ea. cbn [s_next emit setp bump] in Ea.
    rewrite (proj1 (tack_next p k s)) in Ea. rewrite A1, A2 in Ea. now injection Ea. }
  assert (Hlr : lr (s_px s1 p) = LNotify /\ s_live s1 = true).
  { unfold accept, send_tack, a_data_req in Ea. cbn [s_next emit setp bump] in Ea.
    rewrite (proj1 (tack_next p k s)) in Ea. rewrite A1, A2 in Ea. injection Ea as _ <-.
    cbn. rewrite same_refl. cbn. rewrite (proj2 (tack_next p k s)). split; auto. apply tack_lr.
    pose proof (k_lr K) as X. now rewrite Ow in X. }
  subst ok. unfold alpmr_data. cbn [s_px setp]. rewrite same_refl. cbn [lr with_mr]. destruct Hlr as (-> & Hl).
  cbn. split; [eauto|auto].
Qed.

Example C38_delivers_case :
  let s := run 5 200 all_ok up st0 in
  let m := mkMsg 7 (ex_notif true 65535 [5]%Z) 0 in
  s_live s = true /\ s_crash s = false /\ received true (s_tr s) = [] /\ frame_wf m /\
  notification true (g_bytes m) (u16 (g_idpos m + 2)) true 65535 65534 (mkAdata 2 0 1 1 7 8 0 0 0 0 0) 9 1 42 /\
  owed true (s_tr s) = Nothing /\ canon (length (taken true (s_tr s))) = 65535%Z.
Proof.
  cbv zeta. do 3 (split; [vm_compute; reflexivity|]).
  split; [split; [repeat constructor; cbn; lia|cbn; lia]|].
  split; [|split; vm_compute; reflexivity].
  unfold notification. split; [cbn; vm_compute; discriminate|]. repeat split; vm_compute; reflexivity.
Qed.

(** ** C39: retransmission *)

(** A retransmitted frame is the one that waits for its transport acknowledge;
    it was retransmitted less than the agreed number of times before; a timer
    has just expired. *)
Theorem C39_limit : forall cap maxp ora es p newer older f, 0 < cap -> Forall input_ok es ->
  hist cap maxp ora es = newer ++ AReTx p f :: older ->
  (exists n, pending p older = Some (f, n) /\ n < agreed older) /\ exists t r, older = AFire p t :: r.
Proof.
  intros cap maxp ora es p newer older f Hc F E.
  exact (always_split _ (hist_good maxp ora Hc F) _ _ _ E).
Qed.

(** If the connection is aborted for want of a transport acknowledge then the
    frame was retransmitted as often as agreed and a timer has just expired
    again. *)
Theorem C39_abort : forall cap maxp ora es p newer older, 0 < cap -> Forall input_ok es ->
  hist cap maxp ora es = newer ++ AAbort (WTimeout p) :: older ->
  exists t r f, older = AFire p t :: r /\ pending p older = Some (f, agreed older).
Proof.
  intros cap maxp ora es p newer older Hc F E.
  exact (always_split _ (hist_good maxp ora Hc F) _ _ _ E).
Qed.

(** After a valid transport acknowledge nothing is retransmitted until another
    frame has been sent. *)
Theorem C39_stop : forall cap maxp ora es p newer older n f, 0 < cap -> Forall input_ok es ->
  hist cap maxp ora es = newer ++ ATack p n :: older ->
  In (AReTx p f) newer -> exists g b ok, In (ATx p g b ok) newer /\ f_tack g = true.
Proof.
  intros cap maxp ora es p newer older n f Hc F E Hin.
  apply in_split in Hin. destruct Hin as (n1 & n2 & ->).
  rewrite <- app_assoc in E. cbn in E.
  destruct (@C39_limit cap maxp ora es p _ _ f Hc F E) as ((k & P & _) & _).
  assert (G : forall l, (exists g b ok, In (ATx p g b ok) l /\ f_tack g = true) \/ pending p (l ++ ATack p n :: older) = None).
  { clear. induction l as [|o l IH]; cbn; [right; now rewrite same_refl|].
    destruct IH as [(g & b & ok & H1 & H2)|IH]; [left; exists g, b, ok; auto|].
    destruct o; auto.
    - destruct (same p0 p && f_tack f) eqn:Es; auto. apply andb_true_iff in Es. destruct Es as (E1 & E2).
      apply eqb_prop in E1. subst p0. left. exists f, b, ok. auto.
    - destruct (same p0 p); auto. right. now rewrite IH.
    - right. destruct (same p0 p); auto. }
  destruct (G n2) as [(g & b & ok & H1 & H2)|Gn]; [|congruence].
  exists g, b, ok. split; auto. apply in_or_app. right. now right.
Qed.

(** The timer of an acknowledged alarm is not stopped: it makes the device
    repeat the next alarm, which was sent after the timer was started. *)
Definition ex_two : list input :=
  up ++ [XAlarm true (ex_alarm 1); XAlarm true (ex_alarm 2); XPeriodic; XFrame true (ex_tack 65535) 0;
         XFrame true (ex_ack true 65535 65535 [0; 0; 0; 0]%Z) 0; XPeriodic; XTimer 1].
Theorem C39_spacing_refuted : exists cap maxp ora es p newer f t us r1 r2, 0 < cap /\ Forall input_ok es /\
  hist cap maxp ora es = newer ++ AReTx p f :: AFire p t :: r1 ++ AArm p t us :: r2 /\
  clean p (hist cap maxp ora es) = true /\
  forall b ok, ~ In (ATx p f b ok) r2.
Proof.
  exists 5, 200, all_ok, ex_two, true.
  pose (h := hist 5 200 all_ok ex_two).
  exists (firstn 1 h), (mkFrame (FNotify (ex_alarm 2) 1) true 0 65535), 1, 100000%Z,
    (firstn 14 (skipn 3 h)), (skipn 18 h).
  split; [lia|]. split; [repeat constructor; cbn; lia|].
  split; [vm_compute; reflexivity|]. split; [vm_compute; reflexivity|].
  intros b ok. vm_compute. intros H. repeat destruct H as [H|H]; try discriminate. contradiction.
Qed.

(** ** C40: payload *)

(** The length of the payload is the announced length of the frame without the
    fixed fields. *)
Theorem C40_partial : forall cap maxp ora es p newer older d usi len pos b, 0 < cap -> Forall input_ok es ->
  hist cap maxp ora es = newer ++ AInd p d usi len pos b :: older ->
  exists m, In (AIn p m) older /\ g_buf m = b /\
    let i := u16 (g_idpos m + 2) in
    (0 <= pos <= Z.of_nat (length (g_bytes m)))%Z /\
    (28 <= at16 (g_bytes m) (i + 10) -> i + 12 + at16 (g_bytes m) (i + 10) <= Z.of_nat (length (g_bytes m)) ->
     0 <= len /\ pos + len <= Z.of_nat (length (g_bytes m)))%Z.
Proof.
  intros cap maxp ora es p newer older d usi len pos b Hc F E.
  destruct (C38_indicated _ _ _ _ _ _ _ _ _ _ Hc F E) as (_ & m & t & n & k & c & f & r & H1 & H2 & H3 & _).
  exists m. split; auto. split; auto. cbv zeta.
  set (i := u16 (g_idpos m + 2)) in *. assert (0 <= i)%Z by apply u16_range.
  destruct H3 as (L & _ & _ & _ & _ & _ & _ & _ & _ & -> & ->). split; [lia|].
  intros G1 G2. pose proof (Z.mod_le (at16 (g_bytes m) (i + 10) - 28) 65536). pose proof (Z.mod_pos_bound (at16 (g_bytes m) (i + 10) - 28) 65536). lia.
Qed.

(** Nothing compares the announced length with the length of the frame. *)
Ltac found := first [left; reflexivity | right; found].
Definition ex_long : list Z :=
  (firstn 12 (ex_notif true 65535 [5]) ++ [1; 0] ++ skipn 14 (ex_notif true 65535 [5]))%Z.
Theorem C40_refuted : exists cap maxp ora es p d usi len pos b m, 0 < cap /\ Forall input_ok es /\
  In (AInd p d usi len pos b) (hist cap maxp ora es) /\ In (AIn p m) (hist cap maxp ora es) /\ g_buf m = b /\
  (Z.of_nat (length (g_bytes m)) < pos + len)%Z.
Proof.
  exists 5, 200, all_ok, (up ++ [XFrame true ex_long 0; XPeriodic]), true, (mkAdata 2 0 1 1 7 8 0 0 0 0 0),
    9%Z, 228%Z, 42%Z, 0, (mkMsg 0 ex_long 0).
  split; [lia|]. split; [repeat constructor; cbn; lia|].
  split; [vm_compute; found|]. split; [vm_compute; found|]. split; vm_compute; reflexivity.
Qed.

(** ** C41: malformed frames *)

(** While no notification was cut off and the connection lasts, the next
    complete notification with the expected number is taken: it is acknowledged
    (if a buffer can be had), or the connection ends. *)
Theorem C41_partial : forall cap maxp ora es p m n k d usi len pos, 0 < cap -> Forall input_ok es ->
  let s := run cap maxp ora es st0 in
  s_live s = true -> s_crash s = false ->
  (forall c, In c (received p (s_tr s)) -> ~ cut p (g_bytes c) (u16 (g_idpos c + 2))) ->
  frame_wf m -> notification p (g_bytes m) (u16 (g_idpos m + 2)) true n k d usi len pos ->
  n = canon (length (taken p (s_tr s))) ->
  let s' := snd (handle_msg cap ora p m s) in
  exists new, s_tr s' = new ++ s_tr s /\ In (ATaken p n) new /\
    (o_alloc (ora (s_next s)) = true -> exists f b ok, In (ATx p f b ok) new /\ f_cont f = FTack /\ f_ack f = n).
Proof.
  intros cap maxp ora es p m n k d usi len pos Hc F s El Cr Nc Wf Nf Hn s'.
  assert (I : inv cap [] s) by now apply reach_inv.
  destruct I as [(rl & sl & L)|[D|C]]; [|rewrite (d_live D) in El; discriminate|rewrite (c_crash C) in Cr; discriminate].
  pose proof (v_okp L p) as K.
  assert (Em : mr (s_px s p) = ROpen).
  { destruct (mr (s_px s p)) eqn:M; auto; [now apply (k_mr K) in M|].
    destruct (@hears_reach cap maxp ora es p F Cr M) as (c & H1 & H2). now apply Nc in H1. }
  apply parse_notify in Nf; auto.
  unfold s', handle_msg. rewrite Nf. cbn [handle_pdu]. unfold data_ind. rewrite Em. cbn [negb].
  assert (Hx : n = exp_seq (s_px s p)) by (now rewrite (k_exp K)).
  rewrite <- Hx, Z.eqb_refl. fold (accept ora p n k s).
  destruct (accept ora p n k s) as [ok s1] eqn:Ea.
  assert (A : exists new, s_tr s1 = new ++ s_tr s /\ In (ATaken p n) new /\
    (o_alloc (ora (s_next s)) = true -> exists f b ok, In (ATx p f b ok) new /\ f_cont f = FTack /\ f_ack f = n)).
  { destruct (grows_tack p k s) as (l0 & G0). unfold accept, send_tack, a_data_req in Ea.
    cbn [s_next emit setp bump] in Ea. rewrite (proj1 (tack_next p k s)) in Ea.
    destruct (tack_exp p k s p) as (X1 & _). rewrite <- X1 in Hx.
    destruct (o_alloc (ora (s_next s))); injection Ea as _ <-; cbn; rewrite G0.
    - eexists (_ :: _ :: _ :: _ :: l0). split; [reflexivity|]. split; [cbn; auto|]. intros _.
      eexists _, _, _. split; [right; left; reflexivity|]. cbn. rewrite same_refl. cbn. auto.
    - eexists (_ :: _ :: l0). split; [reflexivity|]. split; [cbn; auto|discriminate]. }
  assert (G : forall t, grows s1 t -> exists new, s_tr t = new ++ s_tr s /\ In (ATaken p n) new /\
    (o_alloc (ora (s_next s)) = true -> exists f b ok, In (ATx p f b ok) new /\ f_cont f = FTack /\ f_ack f = n)).
  { intros t (l & Gt). destruct A as (new & A1 & A2 & A3). exists (l ++ new). rewrite Gt, A1, app_assoc.
    split; [reflexivity|]. split; [apply in_or_app; auto|]. intros Al. destruct (A3 Al) as (f & b & o & B1 & B2).
    exists f, b, o. split; [apply in_or_app; auto|auto]. }
  destruct ok; [|cbn [snd]; apply G, grows_emit, grows_refl].
  unfold alpmr_data. cbn [s_px setp]. rewrite same_refl. cbn [lr with_mr].
  assert (Ge : forall w t, grows s1 t -> grows s1 (error_ind cap ora w t)).
  { intros w t Gt. unfold error_ind. destruct (s_live t); (eapply grows_trans; [exact Gt|]).
    - apply grows_close.
    - now exists [ACrash]. }
  destruct (lr (s_px s1 p)); cbn [snd]; apply G; apply grows_emit;
    repeat first [apply grows_refl | apply Ge | apply grows_setp | apply grows_emit].
Qed.

(** After a notification that is cut off, a complete one with the expected
    number is not even acknowledged. *)
Definition ex_cut : list Z := firstn 30 (ex_notif true 65535 [5]%Z).
Theorem C41_refuted : exists cap maxp ora es p m, 0 < cap /\ Forall input_ok es /\
  let s := run cap maxp ora es st0 in
  s_live s = true /\ clean p (s_tr s) = true /\ frame_wf m /\ owed p (s_tr s) = Nothing /\
  (exists k d usi len pos, notification p (g_bytes m) (u16 (g_idpos m + 2)) true
     (canon (length (taken p (s_tr s)))) k d usi len pos) /\
  s_tr (snd (handle_msg cap ora p m s)) = AFree (g_buf m) :: s_tr s.
Proof.
  exists 5, 200, all_ok, (up ++ [XFrame true ex_cut 0; XPeriodic]), true, (mkMsg 7 (ex_notif true 0 [5]%Z) 0).
  split; [lia|]. split; [repeat constructor; cbn; lia|]. cbv zeta.
  do 2 (split; [vm_compute; reflexivity|]).
  split; [split; [repeat constructor; cbn; lia|cbn; lia]|].
  split; [vm_compute; reflexivity|].
  split; [|vm_compute; reflexivity].
  exists 65534%Z, (mkAdata 2 0 1 1 7 8 0 0 0 0 0), 9%Z, 1%Z, 42%Z.
  unfold notification. split; [cbn; vm_compute; discriminate|]. repeat split; vm_compute; reflexivity.
Qed.

(** ** C42: acknowledge by the application *)

(** High priority, no other frame waiting for its transport acknowledge and a
    buffer at hand: the acknowledge is sent. *)
Theorem C42_high_partial : forall cap maxp ora es d t, 0 < cap -> Forall input_ok es ->
  let s := run cap maxp ora es st0 in
  s_live s = true -> s_crash s = false ->
  owed true (s_tr s) = Owes -> waiting true (s_tr s) = false -> o_alloc (ora (s_next s)) = true ->
  let s' := step cap maxp ora (XAck d t) s in
  exists new send ack b ok ret, s_tr s' = AAckRet d ret :: new ++ s_tr s /\ s_crash s' = false /\
    In (ATx true (mkFrame (FAlAck d t) true send ack) b ok) new /\
    send = canon (length (sent true (s_tr s))) /\ ack = before (length (taken true (s_tr s))).
Proof.
  intros cap maxp ora es d t Hc F s El Cr Ow Wt Al s'.
  assert (I : inv cap [] s) by now apply reach_inv.
  destruct I as [(rl & sl & L)|[D|C]]; [|rewrite (d_live D) in El; discriminate|rewrite (c_crash C) in Cr; discriminate].
  pose proof (v_okp L true) as K. pose proof (k_lr K) as Kl. rewrite Ow in Kl. cbn in Kl.
  pose proof (k_ms K) as Km. rewrite Wt in Km.
  assert (Es : send_seq (s_px s true) = canon (length (sent true (s_tr s)))).
  { rewrite (k_send K), (k_sent K), Wt. f_equal. lia. }
  unfold s', step. rewrite Cr, El. unfold alarm_ack. rewrite Kl. unfold apms_req. cbn [s_px setp eqb]. cbn [ms with_alseq].
  rewrite Km. unfold a_data_req. cbn -[Z.mul]. rewrite Al. cbn -[Z.mul].
  destruct (not_pending true L Wt) as (Rn & _). rewrite Rn. cbn -[Z.mul].
  destruct (o_sched (ora (S (s_next s)))); cbn -[Z.mul]; rewrite Cr; cbn -[Z.mul].
  - eexists [_; _; _], _, _, _, _, _. split; [reflexivity|]. split; [auto|]. split; [right; left; reflexivity|].
    split; auto. apply (k_exp_o K).
  - eexists [_; _; _], _, _, _, _, _. split; [reflexivity|]. split; [auto|]. split; [right; left; reflexivity|].
    split; auto. apply (k_exp_o K).
Qed.

Example C42_case :
  let s := run 5 200 all_ok (up ++ [XFrame true (ex_notif true 65535 [5]%Z) 0; XPeriodic]) st0 in
  s_live s = true /\ s_crash s = false /\ owed true (s_tr s) = Owes /\ waiting true (s_tr s) = false.
Proof. repeat split; vm_compute; reflexivity. Qed.

(** The acknowledge of an alarm of low priority is refused. *)
Theorem C42_refuted : exists cap maxp ora es d t, 0 < cap /\ Forall input_ok es /\
  let s := run cap maxp ora es st0 in
  s_live s = true /\ owed false (s_tr s) = Owes /\ waiting false (s_tr s) = false /\
  s_tr (step cap maxp ora (XAck d t) s) = AAckRet d false :: s_tr s.
Proof.
  exists 5, 200, all_ok, (up ++ [XFrame false (ex_notif false 65535 [5]%Z) 0; XPeriodic]),
    (mkAdata 2 0 1 1 7 8 0 0 0 0 0), (mkPnio 0 0 0 0).
  split; [lia|]. split; [repeat constructor; cbn; lia|]. cbv zeta.
  do 3 (split; [vm_compute; reflexivity|]). vm_compute; reflexivity.
Qed.

(** ** C58: alarms do not crash the device *)

(** The only way to a crash is that a frame is to be sent while the previous
    one of that priority waits for its transport acknowledge. *)
Theorem C58_partial : forall cap maxp ora es, 0 < cap -> Forall input_ok es ->
  let s := run cap maxp ora es st0 in
  s_crash s = true -> exists p c newer older,
    s_tr s = newer ++ ABusy p c :: older /\ waiting p older = true.
Proof.
  intros cap maxp ora es Hc F s Cr.
  assert (I : inv cap [] s) by now apply reach_inv.
  destruct I as [(rl & sl & L)|[D|C]]; [rewrite (v_crash L) in Cr; discriminate|rewrite (d_crash D) in Cr; discriminate|].
  destruct (c_top C) as (r & Er). pose proof (c_good C) as G. rewrite Er in G.
  destruct G as ((p & c & Hin) & G). apply in_split in Hin. destruct Hin as (n & o & ->).
  exists p, c, (ACrash :: n), o. split; [exact Er|].
  now apply (always_split _ G n (ABusy p c) o).
Qed.

(** The device has sent an alarm and the controller has not yet acknowledged
    its reception, when the controller sends one of its own and the application
    acknowledges it. *)
Theorem C58_refuted : exists cap maxp ora es, 0 < cap /\ Forall input_ok es /\
  s_crash (run cap maxp ora es st0) = true.
Proof.
  exists 5, 200, all_ok, (up ++ [XAlarm true (ex_alarm 1); XPeriodic; XFrame true (ex_notif true 65535 [5]%Z) 0; XPeriodic;
     XAck (mkAdata 2 0 1 1 7 8 0 0 0 0 0) (mkPnio 0 0 0 0)]).
  split; [lia|]. split; [repeat constructor; cbn; lia|]. vm_compute; reflexivity.
Qed.

(** ** C60: numbers of the frames that are sent *)

Theorem C60_numbers : forall cap maxp ora es p, 0 < cap -> Forall input_ok es ->
  let l := sent p (hist cap maxp ora es) in l = map canon (seq 0 (length l)).
Proof.
  intros cap maxp ora es p Hc F. pose proof (hist_good maxp ora Hc F) as G. cbv zeta.
  induction (hist cap maxp ora es) as [|o t IH]; [reflexivity|].
  destruct G as (G & Gt). specialize (IH Gt). destruct o; cbn [sent]; auto;
  (destruct (same p0 p && f_tack f) eqn:Es; rewrite ?app_nil_r; auto; apply andb_true_iff in Es; destruct Es as (E1 & E2);
   apply eqb_prop in E1; subst p0; cbn in G; destruct G as (G & _); destruct (G E2) as (_ & G');
   rewrite app_length; cbn [length]; rewrite Nat.add_1_r, seq_S, map_app; cbn [map]; rewrite <- IH; now rewrite G').
Qed.

(** A frame that wants a transport acknowledge is sent only when none waits for
    one; every frame acknowledges the number that was taken last. *)
Theorem C60_frames : forall cap maxp ora es p newer older f b ok, 0 < cap -> Forall input_ok es ->
  hist cap maxp ora es = newer ++ ATx p f b ok :: older ->
  (f_tack f = true -> waiting p older = false /\ f_send f = canon (length (sent p older))) /\
  f_ack f = before (length (taken p older)).
Proof.
  intros cap maxp ora es p newer older f b ok Hc F E.
  pose proof (always_split _ (hist_good maxp ora Hc F) _ _ _ E) as G. cbn in G. tauto.
Qed.

(** A transport acknowledge counts only if a frame waits for it and it has the
    number of that frame. *)
Theorem C60_tack : forall cap maxp ora es p newer older n, 0 < cap -> Forall input_ok es ->
  hist cap maxp ora es = newer ++ ATack p n :: older ->
  waiting p older = true /\ n = canon (tacks p older).
Proof.
  intros cap maxp ora es p newer older n Hc F E.
  exact (always_split _ (hist_good maxp ora Hc F) _ _ _ E).
Qed.

Example C60_case :
  let h := hist 5 200 all_ok ex_two in
  sent true h = [65535%Z; 0%Z] /\ taken true h = [65535%Z] /\ tacks true h = 1.
Proof. repeat split; vm_compute; reflexivity. Qed.

(** ** C61: the status in alarm_cnf *)

(** It is taken from the four bytes behind the block header. *)
Theorem C61_partial : forall cap maxp ora es p newer older c, 0 < cap -> Forall input_ok es ->
  hist cap maxp ora es = newer ++ ACnf p c :: older ->
  exists m, In (AIn p m) older /\
    (frame_wf m -> (u16 (g_idpos m + 2) + 22 <= Z.of_nat (length (g_bytes m)))%Z ->
     at16 (g_bytes m) (u16 (g_idpos m + 2) + 12) = (if p then 32769 else 32770)%Z ->
     get_bits (at8 (g_bytes m) (u16 (g_idpos m + 2) + 4)) 4 4 = 1%Z ->
     get_bits (at8 (g_bytes m) (u16 (g_idpos m + 2) + 4)) 0 4 = 1%Z ->
     c = status_at (g_bytes m) (u16 (g_idpos m + 2) + 18)).
Proof.
  intros cap maxp ora es p newer older c Hc F E.
  destruct (@C37_confirmed cap maxp ora es p newer older c Hc F E) as (m & t & n & k & b & f & r & H1 & H2 & _).
  exists m. split; auto. intros W L N V T. pose proof (parse_alarm_ack p m W L V T N) as X. congruence.
Qed.

(** An alarm acknowledge has 12 bytes of alarm type, API, slot, sub-slot and
    specifier between the block header and the status. *)
Theorem C61_refuted : exists cap maxp ora es p c m, 0 < cap /\ Forall input_ok es /\
  In (ACnf p c) (hist cap maxp ora es) /\ In (AIn p m) (hist cap maxp ora es) /\
  let i := u16 (g_idpos m + 2) in
  at16 (g_bytes m) (i + 12) = 32769%Z /\ (i + 34 = Z.of_nat (length (g_bytes m)))%Z /\
  status_at (g_bytes m) (i + 30) = mkPnio 0 0 0 0 /\ c <> mkPnio 0 0 0 0.
Proof.
  exists 5, 200, all_ok, ex_two, true, (mkPnio 0 2 0 0), (mkMsg 3 (ex_ack true 65535 65535 [0; 0; 0; 0]%Z) 0).
  split; [lia|]. split; [repeat constructor; cbn; lia|].
  split; [vm_compute; found|]. split; [vm_compute; found|]. cbv zeta.
  split; [vm_compute; reflexivity|]. split; [vm_compute; reflexivity|]. split; [vm_compute; reflexivity|]. discriminate.
Qed.

Print Assumptions C36_queue.
Print Assumptions C36_order.
Print Assumptions C36_accept.
Print Assumptions C36_buffers.
Print Assumptions C37_next_partial.
Print Assumptions C37_one_partial.
Print Assumptions C37_confirmed.
Print Assumptions C37_refuted.
Print Assumptions C38_numbers.
Print Assumptions C38_indicated.
Print Assumptions C38_once.
Print Assumptions C38_repeated.
Print Assumptions C38_delivers.
Print Assumptions C39_limit.
Print Assumptions C39_abort.
Print Assumptions C39_stop.
Print Assumptions C39_spacing_refuted.
Print Assumptions C40_partial.
Print Assumptions C40_refuted.
Print Assumptions C41_partial.
Print Assumptions C41_refuted.
Print Assumptions C42_high_partial.
Print Assumptions C42_refuted.
Print Assumptions C58_partial.
Print Assumptions C58_refuted.
Print Assumptions C60_numbers.
Print Assumptions C60_frames.
Print Assumptions C60_tack.
Print Assumptions C61_partial.
Print Assumptions C61_refuted.
