(** Properties of the plug state machine: C32. *)

From Coq Require Import List Arith Bool ZArith Lia.
From Verif Require Import Base PlugModel.
Import ListNotations.
Set Implicit Arguments.
Open Scope nat_scope.

(** ** Specification: a queue of released sub-modules *)
Section Spec.
Variable item : Type.
Variable max_queue : nat.

(** What happens with the sub-module at the head of the queue. *)
Inductive phase := AlarmSent | Accepted | ReadySent.

(** The sub-modules not yet finished, oldest first, and the phase of the
    first. *)
Definition queue : Type := (list item * phase)%type.

(** The head is finished: the alarm for the next one is sent. *)
Definition next (l : list item) (sent : bool) : queue * list (pobs item) :=
  match l with
  | [] => (([], AlarmSent), [])
  | y :: r => ((y :: r, AlarmSent), [PAlarm y sent])
  end.

Definition qstep (e : pin item) (q : queue) : queue * list (pobs item) :=
  match e, q with
  | PinReleased x sent, ([], _) => (([x], AlarmSent), [PAlarm x sent])
  | PinReleased x sent, (l, ph) =>
      ((if length l <? max_queue then l ++ [x] else l, ph), [])
  | PinPrmEnd true _, (x :: l, AlarmSent) => ((x :: l, Accepted), [PReleased x true])
  | PinPrmEnd false sent, (x :: l, AlarmSent) =>
      let '(q, os) := next l sent in (q, PReleased x false :: os)
  | PinAppReady, (x :: l, Accepted) => ((x :: l, ReadySent), [PReady x])
  | PinConfirmed sent, (x :: l, ReadySent) => next l sent
  | _, _ => (q, [])
  end.

Fixpoint qrun (es : list (pin item)) (q : queue) : queue * list (pobs item) :=
  match es with
  | [] => (q, [])
  | e :: r => let '(q1, os) := qstep e q in
              let '(q2, os') := qrun r q1 in (q2, os ++ os')
  end.
End Spec.

(** ** Refinement *)
Section Proofs.
Variable item : Type.
Variable max_queue : nat.
Hypothesis max_pos : 0 < max_queue.
Hypothesis max_fits : (Z.of_nat max_queue <= 32768)%Z.

Definition slot (c k : nat) : nat :=
  if max_queue <=? c + k then c + k - max_queue else c + k.

Definition holds (p : plug item) (l : list item) : Prop :=
  length l = p_count p /\ p_current p < max_queue /\ p_count p <= max_queue /\
  forall k x, nth_error l k = Some x -> p_queue p (slot (p_current p) k) = x.

Definition same_phase (s : pstate) (l : list item) (ph : phase) : Prop :=
  match s with
  | PIdle => l = []
  | PWfprmind => l <> [] /\ ph = AlarmSent
  | PWfdataupdate => l <> [] /\ ph = Accepted
  | PWfaplrdycnf => l <> [] /\ ph = ReadySent
  end.

Definition rel (p : plug item) (q : queue item) : Prop :=
  holds p (fst q) /\ same_phase (p_state p) (fst q) (snd q).

Lemma slot_inj : forall c j k, c < max_queue -> j < max_queue -> k < max_queue ->
  slot c j = slot c k -> j = k.
Proof.
  intros c j k Hc Hj Hk. unfold slot.
  destruct (Nat.leb_spec max_queue (c + j)), (Nat.leb_spec max_queue (c + k)); lia.
Qed.

Lemma w16_small : forall n, n <= max_queue + max_queue - 1 -> w16 n = n.
Proof.
  intros n H. unfold w16, u16. rewrite Z.mod_small by lia. apply Nat2Z.id.
Qed.
Lemma dec16_small : forall n, 0 < n -> n <= max_queue -> dec16 n = n - 1.
Proof.
  intros n H L. unfold dec16, u16. rewrite Z.mod_small by lia. lia.
Qed.

Lemma holds_app : forall p l x s, holds p l -> length l < max_queue ->
  holds (mkPlug s (p_current p) (w16 (S (p_count p)))
           (upd (p_queue p)
              (let i := w16 (p_current p + p_count p) in
               if max_queue <=? i then i - max_queue else i) x)) (l ++ [x]).
Proof.
  intros p l x s (L & C & M & H) Lt.
  cbv zeta. rewrite (@w16_small (S (p_count p))), (@w16_small (p_current p + p_count p)) by lia.
  change (if max_queue <=? p_current p + p_count p then p_current p + p_count p - max_queue
          else p_current p + p_count p) with (slot (p_current p) (p_count p)).
  unfold holds; cbn [p_count p_current p_queue]. rewrite app_length. cbn.
  repeat split; try lia.
  intros k y E. destruct (Nat.eq_dec k (length l)) as [->|N].
  - rewrite nth_error_app2, Nat.sub_diag in E by lia. injection E as <-. rewrite L. apply upd_same.
  - assert (k < length l).
    { assert (k < length (l ++ [x])) by (apply nth_error_Some; congruence).
      rewrite app_length in *. cbn in *. lia. }
    rewrite nth_error_app1 in E by auto. rewrite upd_other; [auto|].
    intros Q. apply N. rewrite L. apply (@slot_inj (p_current p)); (lia || congruence).
Qed.

Lemma holds_tail : forall p l x s, holds p (x :: l) ->
  holds (mkPlug s (if max_queue <=? w16 (S (p_current p)) then 0 else w16 (S (p_current p)))
           (dec16 (p_count p)) (p_queue p)) l.
Proof.
  intros p l x s (L & C & M & H). cbn in L.
  rewrite w16_small, dec16_small by lia. unfold holds; cbn [p_count p_current p_queue].
  repeat split; try lia.
  - destruct (Nat.leb_spec max_queue (S (p_current p))); lia.
  - intros k y E. specialize (H (S k) y E).
    assert (k < length l) by (apply nth_error_Some; congruence).
    rewrite <- H. f_equal. unfold slot.
    destruct (Nat.leb_spec max_queue (S (p_current p))).
    + assert (p_current p = max_queue - 1) by lia.
      destruct (Nat.leb_spec max_queue (0 + k)), (Nat.leb_spec max_queue (p_current p + S k)); lia.
    + destruct (Nat.leb_spec max_queue (S (p_current p) + k)),
        (Nat.leb_spec max_queue (p_current p + S k)); lia.
Qed.

Lemma holds_head : forall p l x, holds p (x :: l) -> p_queue p (p_current p) = x.
Proof.
  intros p l x (L & C & M & H). specialize (H 0 x eq_refl).
  unfold slot in H. rewrite Nat.add_0_r in H.
  destruct (Nat.leb_spec max_queue (p_current p)); [lia|auto].
Qed.

Lemma holds_state : forall p l s, holds p l ->
  holds (mkPlug s (p_current p) (p_count p) (p_queue p)) l.
Proof. intros p l s H. exact H. Qed.

Lemma cnf_rel : forall p x l sent, holds p (x :: l) -> p_state p = PWfaplrdycnf ->
  let '(p', os) := application_ready_cnf max_queue sent p in
  let '(q', os') := next l sent in rel p' q' /\ os = os'.
Proof.
  intros p x l sent H S. unfold application_ready_cnf. rewrite S.
  pose proof H as (L & C & M & _). pose proof (@dec16_small (p_count p)) as D. cbn in L.
  rewrite D in * by lia.
  assert (T : forall s, holds (mkPlug s (if max_queue <=? w16 (Datatypes.S (p_current p)) then 0 else
     w16 (Datatypes.S (p_current p))) (p_count p - 1) (p_queue p)) l).
  { intros s. rewrite <- D by lia. eapply holds_tail; eauto. }
  destruct l as [|y l].
  - cbn in L. destruct (Nat.ltb_spec 0 (p_count p - 1)); [lia|]. cbn [next].
    split; [split; [apply T|reflexivity]|reflexivity].
  - cbn in L. destruct (Nat.ltb_spec 0 (p_count p - 1)); [|lia]. cbn [next].
    split; [split; [apply T|split; [discriminate|reflexivity]]|].
    f_equal. f_equal. exact (holds_head (T PIdle)).
Qed.

Lemma step_rel : forall e p q, rel p q ->
  let '(p', os) := pstep max_queue e p in
  let '(q', os') := qstep max_queue e q in rel p' q' /\ os = os'.
Proof.
  intros e p [l ph] [H Ph]. cbn [fst snd] in *.
  pose proof H as (L & C & M & _).
  destruct e as [x sent|answer sent| |sent]; cbn [pstep].
  - unfold released_alarm_req. destruct l as [|y l].
    + assert (St : p_state p = PIdle).
      { destruct (p_state p); auto; cbn in Ph; destruct Ph; congruence. }
      cbn in L. rewrite <- L. destruct (Nat.leb_spec max_queue 0); [lia|]. cbn [p_state].
      rewrite St. cbn [qstep].
      pose proof (@holds_app p [] x PWfprmind H ltac:(cbn; lia)) as A. rewrite <- L in A. cbn [app] in A.
      split; [split; [exact A|split; [discriminate|reflexivity]]|].
      f_equal. f_equal. exact (holds_head A).
    + assert (St : p_state p <> PIdle).
      { intros St. rewrite St in Ph. discriminate. }
      assert (N : forall p1 : plug item, p_state p1 = p_state p ->
        match p_state p1 with
        | PIdle => (mkPlug PWfprmind (p_current p1) (p_count p1) (p_queue p1),
                     [PAlarm (p_queue p1 (p_current p1)) sent])
        | _ => (p1, []) end = (p1, [])).
      { intros p1 E. rewrite E. destruct (p_state p); congruence. }
      rewrite N by (destruct (max_queue <=? p_count p); reflexivity).
      cbn [qstep]. split; [|reflexivity]. rewrite L.
      destruct (Nat.leb_spec max_queue (p_count p)), (Nat.ltb_spec (p_count p) max_queue); try lia.
      * split; auto.
      * split; cbn [fst snd p_state].
        -- apply (@holds_app p (y :: l) x (p_state p) H). lia.
        -- cbn [same_phase] in *. destruct (p_state p); cbn [same_phase] in *; try (destruct Ph as [_ ->]; split; [discriminate|reflexivity]). discriminate.
  - unfold prmend_ind. destruct (p_state p) eqn:St; cbn in Ph.
    + subst l. cbn. destruct answer; split; auto; split; auto; rewrite St; reflexivity.
    + destruct Ph as [Ne ->]. destruct l as [|y l]; [congruence|].
      rewrite (holds_head H). destruct answer.
      * split; auto. split; [exact H|split; [discriminate|reflexivity]].
      * pose proof (@cnf_rel (mkPlug PWfaplrdycnf (p_current p) (p_count p) (p_queue p)) y l sent H eq_refl) as X.
        destruct (application_ready_cnf max_queue sent _) as [p' os]. cbn [qstep].
        destruct (next l sent) as [q' os']. destruct X as [X ->]. auto.
    + destruct Ph as [Ne ->]. destruct l as [|y l]; [congruence|].
      cbn. destruct answer; (split; [split; [exact H|rewrite St; split; [discriminate|reflexivity]]|reflexivity]).
    + destruct Ph as [Ne ->]. destruct l as [|y l]; [congruence|].
      cbn. destruct answer; (split; [split; [exact H|rewrite St; split; [discriminate|reflexivity]]|reflexivity]).
  - unfold application_ready_req. destruct (p_state p) eqn:St; cbn in Ph.
    + subst l. cbn. split; auto; split; auto; rewrite St; reflexivity.
    + destruct Ph as [Ne ->]. destruct l as [|y l]; [congruence|].
      cbn. split; [split; [exact H|rewrite St; split; [discriminate|reflexivity]]|reflexivity].
    + destruct Ph as [Ne ->]. destruct l as [|y l]; [congruence|].
      rewrite (holds_head H). cbn. split; auto. split; [exact H|split; [discriminate|reflexivity]].
    + destruct Ph as [Ne ->]. destruct l as [|y l]; [congruence|].
      cbn. split; [split; [exact H|rewrite St; split; [discriminate|reflexivity]]|reflexivity].
  - destruct (p_state p) eqn:St; cbn in Ph.
    1: { subst l. unfold application_ready_cnf. rewrite St. cbn. split; auto; split; auto; rewrite St; reflexivity. }
    3: { destruct Ph as [Ne ->]. destruct l as [|y l]; [congruence|].
         pose proof (@cnf_rel p y l sent H St) as X.
         destruct (application_ready_cnf max_queue sent p) as [p' os]. cbn [qstep]. exact X. }
    all: destruct Ph as [Ne ->]; destruct l as [|y l]; [congruence|];
      unfold application_ready_cnf; rewrite St; cbn;
      (split; [split; [exact H|rewrite St; split; [discriminate|reflexivity]]|reflexivity]).
Qed.

Lemma run_rel : forall es p q, rel p q ->
  rel (fst (prun max_queue es p)) (fst (qrun max_queue es q)) /\
  snd (prun max_queue es p) = snd (qrun max_queue es q).
Proof.
  induction es as [|e es IH]; intros p q R; cbn [prun qrun]; [auto|].
  pose proof (step_rel e R) as X.
  destruct (pstep max_queue e p) as [p1 os], (qstep max_queue e q) as [q1 os'].
  destruct X as [X ->]. specialize (IH p1 q1 X).
  destruct (prun max_queue es p1) as [p2 o2], (qrun max_queue es q1) as [q2 o2'].
  cbn in *. destruct IH as [IH ->]. auto.
Qed.

Lemma rel0 : forall junk, rel (plug0 junk) ([], AlarmSent).
Proof.
  intros junk. split; [|reflexivity]. repeat split; cbn; try lia.
  intros k x E. destruct k; discriminate.
Qed.
End Proofs.

(** C32: seen from outside, the state machine is the bounded queue of the
    specification, for every history of requests and answers. *)
Theorem C32_refines_queue : forall item max_queue junk (es : list (pin item)),
  0 < max_queue -> (Z.of_nat max_queue <= 32768)%Z ->
  snd (prun max_queue es (plug0 junk)) = snd (qrun max_queue es ([], AlarmSent)).
Proof. intros. apply run_rel; auto. apply rel0; auto. Qed.

(** ** Consequences: order, one at a time, nothing lost *)
Section Order.
Variable item : Type.
Variable max_queue : nat.

Definition alarm_of (o : pobs item) : list item :=
  match o with PAlarm x _ => [x] | _ => [] end.
Definition alarms (os : list (pobs item)) : list item := flat_map alarm_of os.
(** The requests that found room in the queue. *)
Fixpoint accepted (es : list (pin item)) (q : queue item) : list item :=
  match es with
  | [] => []
  | e :: r =>
      match e with
      | PinReleased x _ =>
          if (length (fst q) <? max_queue) || (length (fst q) =? 0) then [x] else []
      | _ => []
      end ++ accepted r (fst (qstep max_queue e q))
  end.

Definition waiting (q : queue item) : list item := tl (fst q).

Lemma alarms_app : forall a b, alarms (a ++ b) = alarms a ++ alarms b.
Proof. intros. apply flat_map_app. Qed.

Lemma next_alarms : forall (l : list item) sent,
  alarms (snd (next l sent)) ++ waiting (fst (next l sent)) = l.
Proof. intros [|y l] sent; reflexivity. Qed.

Lemma qstep_alarms : forall e q,
  alarms (snd (qstep max_queue e q)) ++ waiting (fst (qstep max_queue e q)) =
  waiting q ++ match e with
               | PinReleased x _ =>
                   if (length (fst q) <? max_queue) || (length (fst q) =? 0) then [x] else []
               | _ => []
               end.
Proof.
  intros e [l ph].
  destruct e as [x sent|[|] sent| |sent]; destruct l as [|y l];
    try (cbn; rewrite ?app_nil_r; reflexivity).
  - cbn. now rewrite Bool.orb_true_r.
  - cbn -[Nat.ltb]. rewrite Bool.orb_false_r.
    destruct (S (length l) <? max_queue); cbn; rewrite ?app_nil_r; reflexivity.
  - destruct ph; cbn; rewrite ?app_nil_r; reflexivity.
  - destruct ph; cbn -[next]; rewrite ?app_nil_r; try reflexivity.
    pose proof (next_alarms l sent) as N. destruct (next l sent) as [q os]. cbn in *. exact N.
  - destruct ph; cbn; rewrite ?app_nil_r; reflexivity.
  - destruct ph; cbn -[next]; rewrite ?app_nil_r; try reflexivity. apply next_alarms.
Qed.

Lemma qrun_alarms : forall es q,
  alarms (snd (qrun max_queue es q)) ++ waiting (fst (qrun max_queue es q)) =
  waiting q ++ accepted es q.
Proof.
  induction es as [|e es IH]; intros q; cbn [qrun accepted]; [now rewrite app_nil_r|].
  pose proof (qstep_alarms e q) as S. destruct (qstep max_queue e q) as [q1 os] eqn:E.
  cbn [fst snd] in S |- *. specialize (IH q1).
  destruct (qrun max_queue es q1) as [q2 os']. cbn [fst snd] in *.
  rewrite alarms_app, <- app_assoc, IH, app_assoc, S, <- app_assoc. reflexivity.
Qed.
End Order.

(** The alarms sent, followed by the sub-modules still waiting, are exactly
    the accepted requests in their order. *)
Theorem C32_fifo_nothing_lost : forall item max_queue junk (es : list (pin item)),
  0 < max_queue -> (Z.of_nat max_queue <= 32768)%Z ->
  alarms (snd (prun max_queue es (plug0 junk))) ++
    waiting (fst (qrun max_queue es ([], AlarmSent))) =
  accepted max_queue es ([], AlarmSent).
Proof.
  intros. rewrite C32_refines_queue by auto.
  exact (qrun_alarms max_queue es ([], AlarmSent)).
Qed.

(** One at a time: after the alarm for a sub-module the application is asked
    once; if it accepts, application ready is sent once; the next alarm comes
    only after a refusal or application ready. *)
Inductive stage := Alarmed | Taken | Finished.
Fixpoint one_at_a_time {item} (cur : option (item * stage)) (os : list (pobs item)) : Prop :=
  match os with
  | [] => True
  | PAlarm x _ :: r =>
      match cur with
      | None | Some (_, Finished) => one_at_a_time (Some (x, Alarmed)) r
      | _ => False
      end
  | PReleased x ok :: r =>
      match cur with
      | Some (y, Alarmed) =>
          x = y /\ one_at_a_time (Some (y, if ok then Taken else Finished)) r
      | _ => False
      end
  | PReady x :: r =>
      match cur with
      | Some (y, Taken) => x = y /\ one_at_a_time (Some (y, Finished)) r
      | _ => False
      end
  end.

Definition stage_of (ph : phase) : stage :=
  match ph with AlarmSent => Alarmed | Accepted => Taken | ReadySent => Finished end.
Definition cur_of {item} (q : queue item) : option (item * stage) :=
  match q with
  | ([], _) => None
  | (x :: _, ph) => Some (x, stage_of ph)
  end.

Lemma qrun_one : forall item max_queue es (q : queue item) c,
  (c = cur_of q \/ (fst q = [] /\ exists x, c = Some (x, Finished))) ->
  one_at_a_time c (snd (qrun max_queue es q)).
Proof.
  intros item max_queue es. induction es as [|e es IH]; intros q c Hc; cbn [qrun]; [exact Logic.I|].
  destruct (qstep max_queue e q) as [q1 os] eqn:E.
  specialize (IH q1). destruct (qrun max_queue es q1) as [q2 os']. cbn [snd] in *.
  destruct q as [l ph].
  destruct e as [x sent|[|] sent| |sent]; destruct l as [|y l]; cbn -[Nat.ltb] in E, Hc.
  - injection E as <- <-. cbn. destruct Hc as [->|(_ & z & ->)]; apply IH; left; reflexivity.
  - injection E as <- <-. cbn [app]. apply IH. destruct Hc as [->|(H & _)]; [|discriminate].
    left. destruct (S (length l) <? max_queue); reflexivity.
  - injection E as <- <-. apply IH. cbn. exact Hc.
  - destruct Hc as [->|(H & _)]; [|discriminate].
    destruct ph; injection E as <- <-; cbn; try (apply IH; left; reflexivity).
    split; auto.
  - injection E as <- <-. apply IH. cbn. exact Hc.
  - destruct Hc as [->|(H & _)]; [|discriminate].
    destruct ph; try (injection E as <- <-; cbn; apply IH; left; reflexivity).
    destruct l as [|z l]; cbn in E; injection E as <- <-; cbn; split; auto.
    apply IH. right. eauto.
  - injection E as <- <-. apply IH. cbn. exact Hc.
  - destruct Hc as [->|(H & _)]; [|discriminate].
    destruct ph; injection E as <- <-; cbn; try (apply IH; left; reflexivity).
    split; auto.
  - injection E as <- <-. apply IH. cbn. exact Hc.
  - destruct Hc as [->|(H & _)]; [|discriminate].
    destruct ph; try (injection E as <- <-; cbn; apply IH; left; reflexivity).
    destruct l as [|z l]; cbn in E; injection E as <- <-; cbn; apply IH; [right; eauto|left; reflexivity].
Qed.

Theorem C32_one_at_a_time : forall item max_queue junk (es : list (pin item)),
  0 < max_queue -> (Z.of_nat max_queue <= 32768)%Z ->
  one_at_a_time None (snd (prun max_queue es (plug0 junk))).
Proof.
  intros. rewrite C32_refines_queue by auto. apply qrun_one. left. reflexivity.
Qed.

(** If the alarm of the head cannot be sent, nothing is sent for it or for any
    later request until the controller happens to end a parameterisation that
    nobody asked it for: the code ignores the failure. *)
Theorem C32_send_failure_refuted : forall item max_queue junk (x : item) es,
  0 < max_queue -> (Z.of_nat max_queue <= 32768)%Z ->
  (forall e, In e es -> forall answer sent, e <> PinPrmEnd answer sent) ->
  snd (prun max_queue (PinReleased x false :: es) (plug0 junk)) = [PAlarm x false].
Proof.
  intros item max_queue junk x es Hp Hf He. rewrite C32_refines_queue by auto.
  assert (G : forall es l, (forall e, In e es -> forall answer sent, e <> PinPrmEnd answer sent) ->
            snd (qrun max_queue es (x :: l, AlarmSent)) = []).
  { induction es0 as [|e es' IH]; intros l H; cbn [qrun]; auto.
    assert (S : exists l', qstep max_queue e (x :: l, AlarmSent) = ((x :: l', AlarmSent), [])).
    { destruct e as [y sent|a sent| |sent]; cbn -[Nat.ltb]; eauto.
      - destruct (_ <? _); cbn; eauto.
      - exfalso. eapply H; [left; reflexivity|reflexivity]. }
    destruct S as (l' & ->). specialize (IH l' (fun e' Hi => H e' (or_intror Hi))).
    destruct (qrun max_queue es' _) as [q os]. cbn in *. exact IH. }
  cbn [qrun qstep]. specialize (G es [] He).
  destruct (qrun max_queue es ([x], AlarmSent)) as [q os]. cbn in *. now rewrite G.
Qed.

(** Three released sub-modules, one rejected by the application. *)
Example C32_case :
  snd (prun 2 [PinReleased 5 true; PinReleased 6 true; PinReleased 7 true;
               PinPrmEnd false true; PinReleased 8 true; PinPrmEnd true true;
               PinAppReady; PinConfirmed true] (plug0 0)) =
  [PAlarm 5 true; PReleased 5 false; PAlarm 6 true; PReleased 6 true; PReady 6; PAlarm 8 true].
Proof. vm_compute. reflexivity. Qed.

Print Assumptions C32_refines_queue.
Print Assumptions C32_fifo_nothing_lost.
Print Assumptions C32_one_at_a_time.
Print Assumptions C32_send_failure_refuted.
