(** C92, C93: responses arrive completely; repetitions. *)
From Coq Require Import List ZArith Arith Bool Lia.
From Verif Require Import Base CpmModel CpmProps PpmModel PpmProps BlockModel BlockReadLemmas BlockReadProps BlockWriteProps RpcModel RpcLemmas RpcInv RpcStep RpcProps RpcFrame RpcIdent RpcAnswer.
Import ListNotations.
Local Open Scope Z_scope.

(** * Specification: what a controller does with the datagrams it receives *)

Definition zero8 : list Z := [0; 0; 0; 0; 0; 0; 0; 0].
(** Header and body of a datagram. *)
Definition decode (f : list Z) : option (rpch * list Z) :=
  match get_dce_rpc_header zero8 zero8 zero8 (mkRd (Some f) (Z.of_nat (length f)) false POk 0) with
  | Ok (h, r) => Some (h, skipn (Z.to_nat (r_pos r)) f)
  | _ => None
  end.
(** Next fragment number, data so far, complete.  A fragment with another number (a
    repetition) is ignored. *)
Definition take (u : uuid) (sq : Z) (a : Z * list Z * bool) (f : list Z) : Z * list Z * bool :=
  let '(n, d, done) := a in
  match decode f with
  | Some (h, b) =>
    if negb done && (h_ptype h =? pt_response) && (h_fragnmb h =? n) && uuid_eqb (h_activity h) u && (h_seq h =? sq) && (Z.of_nat (length b) =? h_bodylen h)
    then (n + 1, d ++ b, (h_frag h =? 0) || negb (h_last h =? 0)) else a
  | None => a
  end.
Definition reassemble (u : uuid) (sq : Z) (fs : list (list Z)) : Z * list Z * bool := fold_left (take u sq) fs (0, [], false).

(** Datagrams that the device sends for session [k]. *)
Fixpoint sent_by (k : nat) (e : list ev) : list (list Z) :=
  match e with
  | [] => []
  | Sent j _ _ _ b :: t => if Nat.eqb j k then b :: sent_by k t else sent_by k t
  | _ :: t => sent_by k t
  end.

(** The datagram is an acknowledge of the client with this activity UUID and number. *)
Definition is_ack (x : input) (u : uuid) (sq : Z) : Prop :=
  match x with
  | IDatagram ip port frame len old =>
    0 < len /\ exists h r, get_dce_rpc_header old old old (mkRd (Some frame) len false POk 0) = Ok (h, r) /\
      h_ptype h = 9 /\ h_frag h = 0 /\ h_bodylen h <= 1384 /\ h_activity h = u /\ h_seq h = sq
  | _ => False
  end.

(** What happens after the first transmission, with [n] acknowledges; the list has the
    datagrams sent in session [k]: inputs that do not concern the session; repetitions;
    acknowledges. *)
Inductive rounds (c : cfg) (k : nat) (u : uuid) (sq : Z) : nat -> net -> list (list Z) -> net -> Prop :=
| rounds_end : forall st, rounds c k u sq 0 st [] st
| rounds_other : forall n x st st1 e fs st2, input_ok x -> step c x st = Ok (st1, e) -> sess_at c st1 k = sess_at c st k -> sent_by k e = [] ->
    rounds c k u sq n st1 fs st2 -> rounds c k u sq n st fs st2
| rounds_repeat : forall n o st st1 e fs st2, input_ok (IResend k, o) -> 0 < s_counter (sess_at c st k) -> o_sent o = true ->
    step c (IResend k, o) st = Ok (st1, e) -> rounds c k u sq n st1 fs st2 -> rounds c k u sq n st (sent_by k e ++ fs) st2
| rounds_ack : forall n x o st st1 e fs st2, input_ok (x, o) -> is_ack x u sq -> o_sent o = true -> o_timer o = true ->
    (forall j, s_used (sess_at c st j) = true -> s_uuid (sess_at c st j) = u -> j = k) ->
    step c (x, o) st = Ok (st1, e) -> rounds c k u sq n st1 fs st2 -> rounds c k u sq (S n) st (sent_by k e ++ fs) st2.

(** * Proof *)
Lemma decode_ok : forall h b, rpch_ok h -> Z.of_nat (length b) < 65456 -> decode (hbytes h ++ b) = Some (h, b).
Proof.
  intros h b H L. unfold decode. pose proof (hbytes_length h H) as LH.
  rewrite hbytes_read by (try assumption; try reflexivity; rewrite app_length; lia). cbn [r_pos]. change (Z.to_nat 80) with 80%nat.
  rewrite skipn_app, skipn_all2 by lia. rewrite LH. reflexivity.
Qed.

Lemma take_ok : forall u sq n d h b, rpch_ok h -> Z.of_nat (length b) < 65456 -> h_ptype h = 2 -> h_fragnmb h = n -> h_activity h = u -> h_seq h = sq ->
  h_bodylen h = Z.of_nat (length b) -> take u sq (n, d, false) (hbytes h ++ b) = (n + 1, d ++ b, (h_frag h =? 0) || negb (h_last h =? 0)).
Proof.
  intros u sq n d h b H L T N U S1 B. unfold take. rewrite decode_ok by assumption. rewrite T, N, U, S1, B.
  unfold pt_response. rewrite !Z.eqb_refl. rewrite (proj2 (uuid_eqb_eq u u) eq_refl). reflexivity.
Qed.
Lemma take_again : forall u sq n d done h b, rpch_ok h -> Z.of_nat (length b) < 65456 -> done = true \/ h_fragnmb h <> n ->
  take u sq (n, d, done) (hbytes h ++ b) = (n, d, done).
Proof.
  intros u sq n d done h b H L X. unfold take. rewrite decode_ok by assumption. destruct X as [->|X]; [reflexivity|].
  destruct (Z.eqb_spec (h_fragnmb h) n); [contradiction|]. rewrite !andb_false_r. reflexivity.
Qed.

Lemma sent_by_app : forall k a b, sent_by k (a ++ b) = sent_by k a ++ sent_by k b.
Proof.
  intros k a b. induction a as [|x a IH]; [reflexivity|]. cbn [Datatypes.app sent_by]. destruct x; try exact IH.
  destruct (Nat.eqb k0 k); cbn [Datatypes.app]; rewrite IH; reflexivity.
Qed.

(** The session while a response [t] is transmitted and [n] fragments are acknowledged;
    [a]: what the controller has. *)
Definition current (s : sess) : list Z := firstn (Z.to_nat (s_send_len s)) (s_out s).
Definition active (t : list Z) (u : uuid) (sq : Z) (n : Z) (s : sess) : Prop :=
  let z := Z.of_nat (length t) in
  0 <= n /\ 1360 <= z /\ z mod 1360 <> 0 /\ 1360 * n < z /\ s_out_len s = 80 + z /\ s_out_frag s = n /\
  next_pos s = Z.min (1440 + 1360 * n) (80 + z) /\
  firstn (Z.to_nat (s_out_len s - next_pos s)) (skipn (Z.to_nat (next_pos s)) (s_out s)) = skipn (Z.to_nat (next_pos s - 80)) t /\
  exists h b, current s = hbytes h ++ b /\ rpch_ok h /\ Z.of_nat (length b) <= 1360 /\ h_fragnmb h = n.
Definition progress (t : list Z) (u : uuid) (sq : Z) (n : Z) (s : sess) (a : Z * list Z * bool) : Prop :=
  let z := Z.of_nat (length t) in
  s_used s = true /\ s_uuid s = u /\ s_from_me s = false /\ 0 <= s_socket s /\
  exists m, a = (m, firstn (Z.to_nat (1360 * (n + 1))) t, z <=? 1360 * (n + 1)) /\
  ((active t u sq n s /\ m = n + 1) \/ (s_out_len s <= next_pos s /\ s_resend s = false /\ z <= 1360 * (n + 1))).

Lemma locate_only : forall c st k u, s_used (sess_at c st k) = true -> s_uuid (sess_at c st k) = u ->
  (forall j, s_used (sess_at c st j) = true -> s_uuid (sess_at c st j) = u -> j = k) -> locate (n_sess st) 0 u = Some k.
Proof.
  intros c st k u U E O. destruct (locate (n_sess st) 0 u) as [j|] eqn:L.
  - destruct (locate_spec _ _ _ _ L) as [_ B]. specialize (B (blank c)). rewrite Nat.sub_0_r in B. destruct B as [B1 B2].
    apply uuid_eqb_eq in B2. f_equal. apply O; [exact B1|]. symmetry. exact B2.
  - exfalso. pose proof (locate_none _ _ _ L _ (used_in c st k U) U) as X. rewrite E in X.
    rewrite (proj2 (uuid_eqb_eq u u) eq_refl) in X. discriminate.
Qed.

(** An acknowledge in session [k]. *)
Definition acked (ip port : Z) (h : rpch) (s : sess) : sess :=
  let s1 := begin_message ip port h (with_err s false) in with_resend s1 false (s_counter s1).
Lemma ack_step : forall c o ip port frame len old st st1 e k h r, cfg_ok c -> net_ok c st -> 0 < len ->
  get_dce_rpc_header old old old (mkRd (Some frame) len false POk 0) = Ok (h, r) ->
  h_ptype h = 9 -> h_frag h = 0 -> h_bodylen h <= 1384 -> locate (n_sess st) 0 (h_activity h) = Some k ->
  step c (IDatagram ip port frame len old, o) st = Ok (st1, e) ->
  next_fragment c o k h r (set_sess st k (acked ip port h (sess_at c st k))) = Ok (st1, e).
Proof.
  intros c o ip port frame len old st st1 e k h r C N L0 P T F B LC E. cbn [step] in E. unfold datagram in E.
  destruct (Z.leb_spec len 0); [lia|]. rewrite P in E. cbn [obind] in E. rewrite packet_steps in E. unfold session_for in E. rewrite LC in E.
  unfold session_step in E. cbn zeta in E. change max_body with 1384 in E. destruct (Z.ltb_spec 1384 (h_bodylen h)); [lia|].
  unfold collect in E. rewrite F in E. cbn [Z.eqb obind orb] in E. unfold act in E. cbn zeta in E. rewrite T in E. cbn [Z.eqb Pos.eqb pt_ping pt_request pt_frag_ack] in E.
  fold (acked ip port h (sess_at c st k)) in E.
  destruct (next_fragment c o k h r (set_sess st k (acked ip port h (sess_at c st k)))) as [[st3 e3]| |] eqn:E3; try discriminate. cbn [obind] in E.
  destruct (s_kill (sess_at c st3 k)) eqn:K.
  - exfalso. (* the flag was cleared *)
    assert (s_kill (sess_at c st3 k) = false); [|congruence]. clear E K.
    destruct (locate_spec _ _ _ _ LC) as [A _].
    assert (SK : sess_ok c (acked ip port h (sess_at c st k))) by (exact (begin_ok c ip port h _ C (proj2 N k))).
    unfold next_fragment in E3. cbn zeta in E3. rewrite !sess_at_set_same in E3 by lia.
    destruct (_ <? s_out_len _).
    + repeat match type of E3 with
      | (do x <- ?a; _) = _ => let F := fresh in destruct a as [[[? ?] ?]| |] eqn:F; try discriminate; cbn [obind] in E3
      | (do x <- ?a; _) = _ => let F := fresh in destruct a as [?| |] eqn:F; try discriminate; cbn [obind] in E3
      end.
      rewrite set_sess_twice in E3. unfold send_with_timeout in E3. rewrite !sess_at_set_same in E3 by lia.
      destruct (s_socket _ <? 0); [injection E3 as <- <-; rewrite sess_at_set_same by lia; reflexivity|].
      cbn [s_counter with_resend number_of_resends] in E3. change (0 <? 3) with true in E3. cbn zeta iota in E3.
      destruct (send_once o k _) as [[ok e0]| |]; try discriminate. cbn [obind] in E3. injection E3 as <- <-.
      rewrite set_sess_twice, sess_at_set_same by lia. reflexivity.
    + injection E3 as <- <-. rewrite set_sess_twice, sess_at_set_same by lia. reflexivity.
  - injection E as <- <-. reflexivity.
Qed.

Lemma used_lt : forall c st k, s_used (sess_at c st k) = true -> (k < length (n_sess st))%nat.
Proof.
  intros c st k U. destruct (Nat.lt_ge_cases k (length (n_sess st))) as [L|L]; [exact L|]. unfold sess_at in U. rewrite nth_overflow in U by exact L. discriminate.
Qed.

Lemma firstn_step : forall (t : list Z) a b, firstn a t ++ firstn b (skipn a t) = firstn (a + b) t.
Proof.
  intros t. induction t as [|x t IH]; intros [|a] b; cbn; try reflexivity; [rewrite firstn_nil; reflexivity|]. rewrite IH. reflexivity.
Qed.

Lemma tail_step : forall (x t : list Z) a p q n, firstn a (skipn p x) = skipn q t -> firstn (a - n) (skipn (p + n) x) = skipn (q + n) t.
Proof.
  intros x t a p q n H. rewrite <- (skipn_skipn n q t), <- H, <- (skipn_skipn n p x). rewrite skipn_firstn_comm. reflexivity.
Qed.

Lemma next_session_fields : forall h r s, s_out_len (next_session h r s) = s_out_len s /\ s_out_frag (next_session h r s) = s_out_frag s + 1 /\
  s_out (next_session h r s) = next_bytes h r s ++ skipn (Z.to_nat (80 + next_size s)) (s_out s).
Proof. intros h r s. unfold next_session. cbn [s_out_len s_out_frag s_out with_resend with_out]. auto. Qed.

Lemma next_sent : forall c h r s, cfg_ok c -> hdr_in h -> sess_ok c s -> next_pos s < s_out_len s ->
  current (next_session h r s) = next_bytes h r s.
Proof.
  intros c h r s C H S1 M. pose proof S1 as (I1 & I2 & I3 & I4 & I5 & I6).
  destruct (more_facts c s C I5 M) as (P & F & LE & SE & NS & NP & LA & LB). unfold cfg_ok in C.
  assert (OL : rpch_ok (next_header h s (next_be s r) (s_out_frag s + 1) (next_last s) (next_size s))).
  { apply next_header_ok; [exact H|apply next_last_flag|lia|lia]. }
  unfold current, next_session. cbn [s_send_len s_out with_resend with_out].
  assert (LN : length (next_bytes h r s) = Z.to_nat (next_size s + 80)).
  { unfold next_bytes. rewrite app_length, (hbytes_length _ OL), firstn_length, skipn_length. lia. }
  rewrite <- LN. rewrite firstn_app, Nat.sub_diag, firstn_all. cbn [firstn]. apply app_nil_r.
Qed.

Lemma progress_ack : forall c o ip port k h r st st1 e t u sq n a, cfg_ok c -> net_ok c st -> hdr_in h ->
  h_activity h = u -> h_seq h = sq -> o_sent o = true -> o_timer o = true ->
  next_fragment c o k h r (set_sess st k (acked ip port h (sess_at c st k))) = Ok (st1, e) -> Z.of_nat (length t) < 65456 -> 0 <= n ->
  progress t u sq n (sess_at c st k) a -> progress t u sq (n + 1) (sess_at c st1 k) (fold_left (take u sq) (sent_by k e) a).
Proof.
  intros c o ip port k h r st st1 e t u sq n a C N H HU HS OS OT E TL N0 (U & UU & FM & SK & m & -> & P).
  pose proof (used_lt c st k U) as L. set (s0 := sess_at c st k) in *. set (s := acked ip port h s0) in *.
  assert (SS : sess_ok c s) by (exact (begin_ok c ip port h _ C (proj2 N k))).
  set (st0 := set_sess st k s) in *. assert (L0 : (k < length (n_sess st0))%nat) by (unfold st0; rewrite length_set_sess; exact L).
  assert (K0 : sess_at c st0 k = s) by (apply sess_at_set_same; exact L).
  set (z := Z.of_nat (length t)) in *.
  destruct (Z.lt_ge_cases (next_pos s) (s_out_len s)) as [M|M].
  - change (next_pos s) with (next_pos s0) in M. change (s_out_len s) with (s_out_len s0) in M.
    destruct P as [[P ->]|P]; [|lia]. destruct P as (P0 & P1 & P2 & P3 & P4 & P5 & P6 & P7 & hc & bc & P8).
    fold z in P1, P2, P3, P4, P6. rewrite P4, P6 in M.
    assert (MN : 1360 * (n + 1) < z) by lia. assert (NP : next_pos s = 1440 + 1360 * n) by (change (next_pos s0 = 1440 + 1360 * n); lia).
    assert (OLen : s_out_len s = 80 + z) by exact P4. assert (OF : s_out_frag s = n) by exact P5.
    rewrite next_fragment_more in E by (try assumption; rewrite K0; try assumption; lia). rewrite K0 in E.
    pose proof (next_session_ok c h r s C H SS ltac:(lia)) as SN. pose proof (next_sent c h r s C H SS ltac:(lia)) as CN.
    set (s' := next_session h r s) in *.
    unfold send_with_timeout in E. rewrite !sess_at_set_same in E by exact L0.
    change (s_socket s') with (s_socket s0) in E. destruct (Z.ltb_spec (s_socket s0) 0); [lia|].
    change (s_counter s') with 3 in E. change (0 <? 3) with true in E. cbn zeta iota in E.
    rewrite (send_once_ok c o k (with_resend s' false (3 - 1))) in E.
    2:{ unfold sess_ok, out_ok in *. cbn [s_in s_out s_in_len s_in_frag s_out_len s_out_frag s_sent_pos s_send_len s_counter with_resend]. destruct SN as (B1 & B2 & B3 & B4 & B5 & B6).
        split; [exact B1|]. split; [exact B2|]. split; [exact B3|]. split; [exact B4|]. split; [exact B5|]. lia. }
    cbn [s_send_len s_out with_resend] in E. fold (current s') in E. rewrite CN in E. cbn [obind] in E.
    unfold send_buffer in E. change (s_socket (with_resend s' false (3 - 1))) with (s_socket s0) in E. destruct (Z.ltb_spec (s_socket s0) 0); [lia|].
    rewrite OS, OT in E. cbn [negb orb] in E.
    destruct (more_facts c s C (proj1 (proj2 (proj2 (proj2 (proj2 SS))))) ltac:(lia)) as (Q1 & Q2 & Q3 & Q4 & Q5 & Q6 & Q7 & Q8).
    assert (OLh : rpch_ok (next_header h s (next_be s r) (s_out_frag s + 1) (next_last s) (next_size s))).
    { apply next_header_ok; [exact H|apply next_last_flag|unfold cfg_ok in C; lia|lia]. }
    assert (NB : exists x y, next_bytes h r s = x :: y).
    { unfold next_bytes. pose proof (hbytes_length _ OLh) as LB.
      destruct (hbytes (next_header h s (next_be s r) (s_out_frag s + 1) (next_last s) (next_size s))) as [|x y]; [discriminate|]. cbn [Datatypes.app]. eauto. }
    destruct NB as (bx & by0 & NB). rewrite NB in E. rewrite <- NB in E. cbn [andb] in E.
    assert (E2 : st1 = set_sess (set_sess st0 k s') k (with_resend (with_resend s' false (3 - 1)) true (s_counter (with_resend s' false (3 - 1)))) /\
      e = [Sent k (s_socket s0) (s_ip (with_resend s' false (3 - 1))) (s_port (with_resend s' false (3 - 1))) (next_bytes h r s)]).
    { revert E. intros E. injection E as <- <-. rewrite NB. auto. }
    clear E. destruct E2 as [-> ->]. rewrite set_sess_twice, sess_at_set_same by exact L0.
    cbn [sent_by]. rewrite Nat.eqb_refl. cbn [fold_left].
    set (b := firstn (Z.to_nat (next_size s)) (skipn (Z.to_nat (next_pos s)) (s_out s))).
    assert (EB : b = firstn (Z.to_nat (next_size s)) (skipn (Z.to_nat (1360 * (n + 1))) t)).
    { unfold b. change (next_pos s0) with (next_pos s) in P7. change (s_out s0) with (s_out s) in P7. change (s_out_len s0) with (s_out_len s) in P7.
      replace (1360 * (n + 1)) with (next_pos s - 80) by lia. rewrite <- P7. rewrite firstn_firstn. f_equal. lia. }
    assert (LB : Z.of_nat (length b) = next_size s).
    { rewrite EB, firstn_length, skipn_length. unfold z in *. lia. }
    assert (EN : next_bytes h r s = hbytes (next_header h s (next_be s r) (s_out_frag s + 1) (next_last s) (next_size s)) ++ b) by reflexivity.
    assert (FM2 : s_from_me s = false) by exact FM.
    assert (LASTE : negb (next_last s =? 0) = (z <=? 1360 * (n + 1 + 1))).
    { unfold next_last. rewrite OLen, NP. destruct (Z.ltb_spec (80 + z - (1440 + 1360 * n)) 1360) as [G|G]; cbn [negb Z.eqb]; symmetry; [apply Z.leb_le; lia|].
      apply Z.leb_gt. assert (z <> 1360 * (n + 1 + 1)); [|lia]. intros Q. apply P2. rewrite Q, Z.mul_comm. apply Z.mod_mul. lia. }
    assert (TK : take u sq (n + 1, firstn (Z.to_nat (1360 * (n + 1))) t, z <=? 1360 * (n + 1)) (next_bytes h r s) =
       (n + 1 + 1, firstn (Z.to_nat (1360 * (n + 1 + 1))) t, z <=? 1360 * (n + 1 + 1))).
    { destruct (Z.leb_spec z (1360 * (n + 1))); [lia|]. rewrite EN. rewrite take_ok; try assumption.
      - unfold next_header at 1 2. cbn [h_frag h_last set_flags Z.eqb orb]. rewrite LASTE. f_equal. f_equal.
        rewrite EB, firstn_step. rewrite <- Z2Nat.inj_add by lia.
        unfold next_size. rewrite OLen, NP. destruct (Z.ltb_spec (80 + z - (1440 + 1360 * n)) 1360) as [G|G].
        + rewrite !firstn_all2 by (unfold z in *; lia). reflexivity.
        + f_equal. lia.
      - lia.
      - unfold next_header. cbn [h_ptype set_flags]. rewrite FM2. reflexivity.
      - change (s_out_frag s + 1 = n + 1). lia.
      - change (next_size s = Z.of_nat (length b)). lia. }
    rewrite TK. unfold progress. fold z.
    split; [exact U|]. split; [exact HU|]. split; [exact FM|]. split; [exact SK|]. eexists. split; [reflexivity|]. left. split; [|reflexivity].
    unfold active. fold z.
    assert (NP2 : next_pos (with_resend (with_resend s' false (3 - 1)) true (s_counter (with_resend s' false (3 - 1)))) = next_pos s + next_size s).
    { unfold next_pos at 1. cbn [s_out_frag with_resend with_out s' next_session s_sent_pos s_send_len]. destruct (Z.eqb_spec (s_out_frag s + 1) 0); lia. }
    rewrite NP2. cbn [s_out_len s_out_frag s_out with_resend].
    assert (A1 : s_out_len s' = s_out_len s) by exact (proj1 (next_session_fields h r s)). assert (A2 : s_out_frag s' = s_out_frag s + 1) by exact (proj1 (proj2 (next_session_fields h r s))).
    assert (A3 : s_out s' = next_bytes h r s ++ skipn (Z.to_nat (80 + next_size s)) (s_out s)) by exact (proj2 (proj2 (next_session_fields h r s))).
    rewrite A1, A2.
    split; [lia|]. split; [exact P1|]. split; [exact P2|]. split; [exact MN|]. split; [exact OLen|]. split; [lia|].
    assert (NS2 : next_size s = Z.min 1360 (z - 1360 * (n + 1))).
    { unfold next_size. rewrite OLen, NP. destruct (Z.ltb_spec (80 + z - (1440 + 1360 * n)) 1360); lia. }
    split; [lia|]. split.
    + rewrite A3.
      assert (LN : length (next_bytes h r s) = Z.to_nat (80 + next_size s)).
      { rewrite EN, app_length, (hbytes_length _ OLh). lia. }
      rewrite skipn_app, LN, (skipn_all2 (next_bytes h r s)) by lia. cbn [Datatypes.app]. rewrite skipn_skipn.
      replace (Z.to_nat (80 + next_size s) + (Z.to_nat (next_pos s + next_size s) - Z.to_nat (80 + next_size s)))%nat with (Z.to_nat (next_pos s + next_size s)) by lia.
      replace (Z.to_nat (s_out_len s - (next_pos s + next_size s))) with (Z.to_nat (s_out_len s - next_pos s) - Z.to_nat (next_size s))%nat by lia.
      replace (Z.to_nat (next_pos s + next_size s)) with (Z.to_nat (next_pos s) + Z.to_nat (next_size s))%nat by lia.
      replace (Z.to_nat (next_pos s + next_size s - 80)) with (Z.to_nat (next_pos s - 80) + Z.to_nat (next_size s))%nat by lia.
      apply tail_step. exact P7.
    + exists (next_header h s (next_be s r) (s_out_frag s + 1) (next_last s) (next_size s)), b.
      split; [exact CN|]. split; [exact OLh|]. split; [lia|]. change (s_out_frag s + 1 = n + 1). lia.
  - assert (EZ : st1 = set_sess st0 k (with_out s (s_out s) 0 0 0 0) /\ e = []).
    { unfold next_fragment in E. cbn zeta in E. rewrite K0 in E.
      destruct (next_pos_model c s C (proj1 (proj2 (proj2 (proj2 (proj2 SS)))))) as (EP & _ & _). rewrite EP in E.
      destruct (Z.ltb_spec (next_pos s) (s_out_len s)); [lia|]. injection E as <- <-. auto. }
    destruct EZ as [-> ->]. rewrite sess_at_set_same by exact L0. cbn [sent_by fold_left]. unfold progress. fold z.
    assert (ZL : z <= 1360 * (n + 1)).
    { destruct P as [[P _]|P]; [|lia]. destruct P as (P0 & P1 & P2 & P3 & P4 & P5 & P6 & _). fold z in P1, P3, P4, P6.
      change (next_pos s) with (next_pos s0) in M. change (s_out_len s) with (s_out_len s0) in M. rewrite P4, P6 in M. lia. }
    split; [exact U|]. split; [exact HU|]. split; [exact FM|]. split; [exact SK|]. exists m. split.
    + f_equal; [f_equal|].
      * rewrite !firstn_all2 by (unfold z in *; lia). reflexivity.
      * destruct (Z.leb_spec z (1360 * (n + 1))), (Z.leb_spec z (1360 * (n + 1 + 1))); try reflexivity; lia.
    + right. split; [cbn; lia|]. split; [reflexivity|]. lia.
Qed.
