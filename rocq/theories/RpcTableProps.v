(** C95: sessions are given back. *)
From Coq Require Import List ZArith Arith Bool Lia.
From Verif Require Import Base CpmModel CpmProps PpmModel PpmProps BlockModel BlockReadLemmas BlockReadProps BlockWriteProps RpcModel RpcLemmas RpcInv RpcStep RpcProps RpcFrame RpcIdent RpcAnswer RpcReply RpcReplyProps RpcDseqProps.
Import ListNotations.
Local Open Scope Z_scope.

(** * A session that is to be released stays so *)
Definition doomed (s : sess) : Prop := s_used s = true -> s_kill s = true.
Lemma doomed_blank : forall c, doomed (blank c).
Proof. intros c U. discriminate U. Qed.
Lemma abort_doomed : forall c i st k, doomed (sess_at c st k) -> doomed (sess_at c (fst (abort c i st)) k).
Proof. intros c i st k D. destruct (abort_sessions c i st) as (_ & _ & S1). destruct (S1 k) as [X|[X _]]; rewrite X; [exact D|apply doomed_blank]. Qed.
Lemma send_doomed : forall c o k st st' e, (k < length (n_sess st))%nat -> send_with_timeout c o k st = Ok (st', e) -> doomed (sess_at c st k) -> doomed (sess_at c st' k).
Proof.
  intros c o k st st' e L E D. unfold send_with_timeout in E. destruct (s_socket (sess_at c st k) <? 0); [apply ok_inv in E; destruct E as [<- _]; exact D|].
  destruct (0 <? s_counter (sess_at c st k)).
  - cbn zeta in E. destruct (send_once o k _) as [[ok e0]| |]; try discriminate. cbn [obind] in E. apply ok_inv in E. destruct E as [<- _].
    rewrite sess_at_set_same by exact L. exact D.
  - cbn zeta in E. destruct (s_ar (sess_at c st k)) as [i|]; [|discriminate].
    set (st1 := set_sess st k (with_resend (sess_at c st k) false (s_counter (sess_at c st k)))) in *.
    assert (D1 : doomed (sess_at c st1 k)) by (unfold st1; rewrite sess_at_set_same by exact L; exact D).
    pose proof (abort_doomed c i st1 k D1) as D2. pose proof (abort_sessions c i st1) as (LA & _ & _). destruct (abort c i st1) as [st2 e2]. cbn [fst] in *.
    destruct (_ && _); apply ok_inv in E; destruct E as [<- _]; [|exact D2].
    rewrite sess_at_set_same; [exact D2|]. rewrite LA. unfold st1. rewrite length_set_sess. exact L.
Qed.
Lemma request_send_doomed : forall c o k h m a b be st st' e, (k < length (n_sess st))%nat -> request_send c o k h m a b be st = Ok (st', e) ->
  doomed (sess_at c st k) -> doomed (sess_at c st' k).
Proof.
  intros c o k h m a b be st st' e L E D. unfold request_send in E. cbn zeta in E.
  destruct (s_out_len (sess_at c st k) <? max_payload); cbn [obind] in E.
  - destruct (put_len be _ _ _ b) as [b3| |]; try discriminate. cbn [obind] in E.
    destruct (send_once o k _) as [[ok e0]| |]; try discriminate. cbn [obind] in E. apply ok_inv in E. destruct E as [<- _]. rewrite sess_at_set_same by exact L. exact D.
  - destruct (put_header _ _ m 0) as [[[b0 start] lp]| |]; try discriminate. cbn [obind] in E.
    destruct (put_len be _ _ _ lp) as [b3| |]; try discriminate. cbn [obind] in E.
    apply send_doomed in E; [exact E|rewrite length_set_sess; exact L|]. rewrite sess_at_set_same by exact L. exact D.
Qed.

(** * Requests after which a client without connection does not keep its session *)

(** Operations: release, read, implicit read, and a connect that is not accepted. *)
Definition finished (h : rpch) (o : hres) : Prop :=
  h_interface h = uuid_io_device /\ (h_opnum h = 1 \/ h_opnum h = 2 \/ h_opnum h = 5 \/ (h_opnum h = 0 /\ o_effect o <> EConnect true)).

Lemma connect_fails_doomed : forall c k st, (k < length (n_sess st))%nat -> doomed (sess_at c (connect_fails c k st) k).
Proof. intros c k st L. unfold connect_fails. rewrite sess_at_set_same by exact L. intros _. reflexivity. Qed.
Lemma kill_if_doomed : forall c k st, (k < length (n_sess st))%nat -> doomed (sess_at c (kill_if c true k st) k).
Proof. intros c k st L. unfold kill_if. rewrite sess_at_set_same by exact L. intros _. cbn. apply orb_true_r. Qed.
Lemma handle_doomed : forall c o k h r st, (k < length (n_sess st))%nat -> finished h o -> s_ar (sess_at c st k) = None ->
  doomed (sess_at c (fst (fst (handle c o k h r st))) k).
Proof.
  intros c o k h r st L [HI F] A. unfold handle. rewrite HI, (proj2 (uuid_eqb_eq uuid_io_device uuid_io_device) eq_refl). unfold rpc_request.
  destruct F as [O|[O|[O|[O NE]]]]; rewrite O; cbn [Z.eqb Pos.eqb op_connect op_release op_read op_write op_control op_read_implicit].
  - assert (LD : length (n_sess (fst (if s_err (sess_at c st k) then (st, []) else match o_effect o with ERelease i => abort c i st | _ => (st, []) end))) = length (n_sess st)).
    { destruct (s_err _); [reflexivity|]. destruct (o_effect o); try reflexivity. apply abort_sessions. }
    unfold do_release. destruct (if s_err (sess_at c st k) then (st, []) else match o_effect o with ERelease i => abort c i st | _ => (st, []) end) as [st1 e]. cbn [fst] in *.
    rewrite sess_at_set_same by lia. intros _. reflexivity.
  - rewrite A. cbn [fst]. rewrite orb_true_r. apply kill_if_doomed. exact L.
  - apply kill_if_doomed. exact L.
  - assert (H : doomed (sess_at c (fst (do_connect c o k (s_err (sess_at c st k)) st)) k)).
    { unfold do_connect. pose proof (connect_fails_doomed c k st L) as D. destruct (s_err _); [exact D|]. destruct (o_effect o) as [| |[]|i|i]; try exact D; [congruence|].
      destruct (ar_at st i) as [j|]; [|exact D]. apply abort_doomed. rewrite sess_at_set_same by exact L. intros _. reflexivity. }
    destruct (do_connect c o k (s_err (sess_at c st k)) st) as [st1 e]. exact H.
Qed.
Lemma answer_request_doomed : forall c o k h r st st' e, (k < length (n_sess st))%nat -> finished h o -> s_ar (sess_at c st k) = None ->
  answer_request c o k h r st = Ok (st', e) -> doomed (sess_at c st' k).
Proof.
  intros c o k h r st st' e L F A E. unfold answer_request in E.
  destruct (request_limit c h r) as [[[m r1] be]| |]; try discriminate. cbn [obind] in E.
  destruct (request_start c o k h m be st) as [[[st1 start] lpos]| |] eqn:E1; try discriminate. cbn [obind] in E.
  pose proof (request_start_local _ _ _ _ _ _ _ _ _ _ E1) as [[L1 _] _].
  assert (A1 : s_ar (sess_at c st1 k) = None).
  { unfold request_start in E1. destruct (put_header _ _ m 0) as [[[b0 st0] lp]| |]; try discriminate. cbn [obind] in E1.
    destruct (poke b0 st0 _) as [b1| |]; try discriminate. cbn [obind] in E1. injection E1 as <- _ _. rewrite sess_at_set_same by exact L. destruct (h_opnum h =? op_release); exact A. }
  pose proof (handle_doomed c o k h (set_be r1 be) st1 ltac:(lia) F A1) as H2. pose proof (handle_others c o k h (set_be r1 be) st1) as [L2 _].
  destruct (handle c o k h (set_be r1 be) st1) as [[st2 e2] prm] eqn:E2. cbn [fst snd] in *.
  destruct (request_send c o k h m start lpos be st2) as [[st3 e3]| |] eqn:E3; try discriminate. cbn [obind] in E. apply ok_inv in E. destruct E as [<- _].
  refine (request_send_doomed _ _ _ _ _ _ _ _ _ _ _ _ E3 H2). lia.
Qed.

(** Datagrams of a client without session: ping, response, fault, reject, cancel; a
    request of this kind; or anything that is too long. *)
Definition transient (h : rpch) (o : hres) : Prop :=
  1384 < h_bodylen h \/
  (h_frag h = 0 /\ (In (h_ptype h) [1; 2; 3; 6; 8] \/ (h_ptype h = 0 /\ finished h o))).

Lemma fresh_step : forall c o ip port frame h r k st st' e, (k < length (n_sess st))%nat -> s_ar (sess_at c st k) = None -> transient h o ->
  session_step c o ip port frame h r k true st = Ok (st', e) -> s_used (sess_at c st' k) = false.
Proof.
  intros c o ip port frame h r k st st' e L A T E. apply session_step_inv in E. destruct E as (s1 & r1 & st3 & e3 & E1 & E2 & E3). cbn zeta in E1, E2.
  set (s2 := with_resend s1 false (s_counter s1)) in *. set (st2 := set_sess st k s2) in *.
  assert (L2 : (k < length (n_sess st2))%nat) by (unfold st2; rewrite length_set_sess; exact L).
  assert (K2 : sess_at c st2 k = s2) by (apply sess_at_set_same; exact L).
  assert (A2 : h_frag h = 0 -> max_body <? h_bodylen h = false -> s_ar s2 = None).
  { intros F B. rewrite B in E1. unfold collect in E1. rewrite F in E1. cbn [Z.eqb] in E1. apply ok_inv in E1. destruct E1 as [<- _]. exact A. }
  clearbody s2.
  assert (D : doomed (sess_at c st3 k)).
  { destruct (max_body <? h_bodylen h) eqn:B.
    - destruct E2 as [_ ->]. rewrite sess_at_set_same by exact L2. intros _. reflexivity.
    - destruct T as [T|[F T]]; [change max_body with 1384 in B; apply Z.ltb_ge in B; lia|]. rewrite F in E2. cbn [Z.eqb orb] in E2. specialize (A2 F eq_refl).
      unfold act in E2. cbn zeta in E2.
      assert (LC : (k < length (n_sess (set_sess st2 k (with_out (sess_at c st2 k) (s_out (sess_at c st2 k)) 0 0 0 0))))%nat) by (rewrite length_set_sess; exact L2).
      destruct T as [T|[PT T]].
      + assert (PT : h_ptype h = 1 \/ h_ptype h = 2 \/ h_ptype h = 3 \/ h_ptype h = 6 \/ h_ptype h = 8) by (destruct T as [T|[T|[T|[T|[T|[]]]]]]; rewrite T; auto).
        destruct PT as [PT|[PT|PT]]; [| |assert (CA : cancel c k st2 = (st3, e3)) by (destruct PT as [PT|[PT|PT]]; rewrite PT in E2; cbn [Z.eqb Pos.eqb pt_ping pt_request pt_frag_ack pt_response pt_cl_cancel pt_fault pt_reject orb] in E2; injection E2 as E2; exact E2)].
        * rewrite PT in E2. cbn [Z.eqb Pos.eqb pt_ping] in E2. destruct (answer_ping o k h _) as [e0| |]; try discriminate. cbn [obind] in E2. apply ok_inv in E2. destruct E2 as [<- _].
          rewrite sess_at_set_same by exact LC. intros _. reflexivity.
        * rewrite PT in E2. cbn [Z.eqb Pos.eqb pt_ping pt_request pt_frag_ack pt_response] in E2. unfold response in E2. apply ok_inv in E2. destruct E2 as [<- _]. apply kill_if_doomed. exact L2.
        * unfold cancel in CA. rewrite K2, A2 in CA. injection CA as <- _. rewrite sess_at_set_same by exact L2. intros _. reflexivity.
      + rewrite PT in E2. cbn [Z.eqb Pos.eqb pt_ping pt_request] in E2. apply answer_request_doomed in E2; [exact E2|exact LC|exact T|].
        rewrite sess_at_set_same by exact L2. rewrite K2. exact A2. }
  destruct (s_kill (sess_at c st3 k)) eqn:SK.
  - destruct E3 as [-> _]. unfold release. destruct (s_used (sess_at c st3 k)) eqn:U; [|exact U]. cbn [fst].
    rewrite sess_at_set_same; [reflexivity|]. apply (used_lt c). exact U.
  - destruct E3 as [-> _]. destruct (s_used (sess_at c st3 k)) eqn:U; [|reflexivity]. specialize (D U). congruence.
Qed.

(** No session more is in use after such a datagram of a client that has none: neither
    its own, nor any other.  Not covered (and violated, see below): acknowledges, unknown
    types, unfinished and other requests of clients without connection. *)
Theorem C95_returned_partial : forall c l st x h st' e, cfg_ok c -> reached c l st -> input_ok x -> has_header (fst x) h -> transient h (snd x) ->
  (forall j, s_used (sess_at c st j) = true -> s_uuid (sess_at c st j) <> h_activity h) ->
  step c x st = Ok (st', e) -> forall j, s_used (sess_at c st' j) = true -> s_used (sess_at c st j) = true.
Proof.
  intros c l st [x o] h st' e C R V H T F E j U. pose proof (reached_ok c l st C R) as N. cbn [fst snd] in *.
  destruct x as [ip port frame len old| | | |]; try contradiction. destruct H as [L0 [r G]]. cbn [step] in E. unfold datagram in E.
  destruct (Z.leb_spec len 0); [lia|]. rewrite G in E. cbn [obind] in E.
  pose proof (packet_others _ _ _ _ _ _ _ _ _ _ C N E) as PO. rewrite packet_steps in E.
  destruct (session_for c o ip port h st) as [[[k fresh] st1]|] eqn:SF; [|destruct PO as [-> _]; exact U].
  destruct (session_for_ok _ _ _ _ _ _ _ _ _ C N SF) as (N1 & L1 & _ & O1 & F1 & F2).
  destruct fresh; [|destruct (F1 eq_refl) as (_ & U1 & U2); apply uuid_eqb_eq in U2; exfalso; exact (F k U1 (eq_sym U2))].
  destruct (F2 eq_refl) as (_ & _ & K1). destruct (Nat.eq_dec j k) as [->|D].
  - rewrite (fresh_step c o ip port frame h r k st1 st' e L1) in U; [discriminate U|rewrite K1; reflexivity|exact T|exact E].
  - destruct PO as [_ PO]. destruct (PO j D) as [X|[X _]]; rewrite X in U; [exact U|discriminate U].
Qed.
Print Assumptions C95_returned_partial.

(** A lookup in the endpoint mapper: afterwards the session is free, or its timer is
    running, whose end makes it free. *)
Lemma send_epm : forall c o k st st' e, (k < length (n_sess st))%nat -> send_with_timeout c o k st = Ok (st', e) -> s_used (sess_at c st' k) = true ->
  s_epmtimer (sess_at c st' k) = s_epmtimer (sess_at c st k).
Proof.
  intros c o k st st' e L E U. unfold send_with_timeout in E. destruct (s_socket (sess_at c st k) <? 0); [apply ok_inv in E; destruct E as [<- _]; reflexivity|].
  destruct (0 <? s_counter (sess_at c st k)).
  - cbn zeta in E. destruct (send_once o k _) as [[ok e0]| |]; try discriminate. cbn [obind] in E. apply ok_inv in E. destruct E as [<- _].
    rewrite sess_at_set_same by exact L. reflexivity.
  - cbn zeta in E. destruct (s_ar (sess_at c st k)) as [i|]; [|discriminate].
    set (st1 := set_sess st k (with_resend (sess_at c st k) false (s_counter (sess_at c st k)))) in *.
    assert (D1 : s_epmtimer (sess_at c st1 k) = s_epmtimer (sess_at c st k)) by (unfold st1; rewrite sess_at_set_same by exact L; reflexivity).
    pose proof (abort_sessions c i st1) as (LA & _ & S1). specialize (S1 k). destruct (abort c i st1) as [st2 e2]. cbn [fst] in *.
    assert (L1 : (k < length (n_sess st2))%nat) by (rewrite LA; unfold st1; rewrite length_set_sess; exact L).
    destruct (_ && _); apply ok_inv in E; destruct E as [<- _]; rewrite ?sess_at_set_same in * by exact L1; cbn [s_used with_socket s_epmtimer] in *;
      (destruct S1 as [X|[X _]]; [rewrite X; exact D1|rewrite X in U; discriminate U]).
Qed.
Theorem C95_lookup_partial : forall c l st x h st' e k, cfg_ok c -> reached c l st -> input_ok x -> has_header (fst x) h ->
  h_ptype h = 0 -> h_frag h = 0 -> h_bodylen h <= 1384 -> h_interface h = uuid_epmap -> o_timer (snd x) = true ->
  step c x st = Ok (st', e) -> s_used (sess_at c st' k) = true -> s_uuid (sess_at c st' k) = h_activity h ->
  (forall j, s_used (sess_at c st j) = true -> s_uuid (sess_at c st j) = h_activity h -> j = k) ->
  exists st'' e'', step c (IEpm k, snd x) st' = Ok (st'', e'') /\ s_used (sess_at c st'' k) = false.
Proof.
  intros c l st [x o] h st' e k C R V H PT F B HI OT E U UU UQ. pose proof (reached_ok c l st C R) as N. cbn [fst snd] in *.
  assert (T : s_epmtimer (sess_at c st' k) = true).
  { destruct x as [ip port frame len old| | | |]; try contradiction. destruct H as [L0 [r G]]. pose proof E as E0. cbn [step] in E. unfold datagram in E.
    destruct (Z.leb_spec len 0); [lia|]. rewrite G in E. cbn [obind] in E.
    pose proof (packet_others _ _ _ _ _ _ _ _ _ _ C N E) as PO. rewrite packet_steps in E.
    destruct (session_for c o ip port h st) as [[[j fresh] stA]|] eqn:SF.
    2:{ destruct PO as [-> _]. exfalso. unfold session_for in SF. rewrite (locate_only c st k (h_activity h)) in SF; [discriminate SF|exact U|exact UU|exact UQ]. }
    destruct (session_for_ok _ _ _ _ _ _ _ _ _ C N SF) as (N1 & L1 & _ & O1 & F1 & F2).
    assert (j = k) as ->.
    { destruct (Nat.eq_dec k j) as [->|D]; [reflexivity|]. destruct PO as [_ PO]. destruct (PO k D) as [X|[X _]]; rewrite X in U, UU; [|discriminate U].
      destruct fresh; [|destruct (F1 eq_refl) as (_ & V1 & V2); apply uuid_eqb_eq in V2; symmetry in V2; exact (UQ j V1 V2)].
      destruct (F2 eq_refl) as (_ & NF & _). pose proof (NF _ (used_in c st k U) U) as Z1. rewrite UU, (proj2 (uuid_eqb_eq (h_activity h) (h_activity h)) eq_refl) in Z1. discriminate Z1. }
    pose proof (request_step c o ip port frame len old st st' e k h r L0 G PT F B E0 U C N fresh stA SF) as E1.
    set (s0 := started ip port h (sess_at c stA k)) in *. clearbody s0. set (stB := set_sess stA k s0) in *.
    assert (LB : (k < length (n_sess stB))%nat) by (unfold stB; rewrite length_set_sess; exact L1). clearbody stB. unfold answer_request in E1.
    destruct (request_limit c h r) as [[[m r1] be]| |]; try discriminate. cbn [obind] in E1.
    destruct (request_start c o k h m be stB) as [[[st1 start] lpos]| |] eqn:E2; try discriminate. cbn [obind] in E1.
    pose proof (request_start_local _ _ _ _ _ _ _ _ _ _ E2) as [[L2 _] _].
    assert (HN : uuid_eqb uuid_epmap uuid_io_device = false) by reflexivity.
    unfold handle in E1. rewrite HI, HN, (proj2 (uuid_eqb_eq uuid_epmap uuid_epmap) eq_refl) in E1. cbn zeta in E1.
    match type of E1 with (do w <- request_send _ _ _ _ _ _ _ _ (set_sess _ _ ?s) ; _) = _ => set (s3 := s) in * end.
    assert (K3 : s_kill s3 = false -> s_epmtimer s3 = true).
    { unfold s3. intros Q. match type of Q with context [if s_kill ?s then _ else _] => destruct (s_kill s) eqn:Q1; [congruence|exact OT] end. }
    clearbody s3. destruct (request_send c o k h m start lpos be _) as [[st3 e3]| |] eqn:E3; try discriminate. cbn [obind] in E1. apply ok_inv in E1. destruct E1 as [<- _].
    assert (L3 : (k < length (n_sess (set_sess st1 k s3)))%nat) by (rewrite length_set_sess; lia).
    assert (SK : s_kill (sess_at c st3 k) = false).
    { cbn [step] in E0. unfold datagram in E0. destruct (Z.leb_spec len 0); [lia|]. rewrite G in E0. cbn [obind] in E0. rewrite packet_steps, SF in E0.
      apply session_step_inv in E0. destruct E0 as (s1' & r1' & st3' & e3' & _ & _ & X3). destruct (s_kill (sess_at c st3' k)) eqn:Q.
      - destruct X3 as [-> _]. exfalso. unfold release in U. destruct (s_used (sess_at c st3' k)) eqn:U3; [|cbn [fst] in U; congruence]. cbn [fst] in U.
        rewrite sess_at_set_same in U; [discriminate U|]. apply (used_lt c). exact U3.
      - destruct X3 as [-> _]. exact Q. }
    assert (K4 : s_kill s3 = true -> doomed (sess_at c st3 k)).
    { intros Q. refine (request_send_doomed c o k h m start lpos be (set_sess st1 k s3) _ _ L3 E3 _). rewrite sess_at_set_same by lia. intros _. exact Q. }
    destruct (s_kill s3); [specialize (K4 eq_refl U); congruence|]. rewrite <- (K3 eq_refl).
    unfold request_send in E3. cbn zeta in E3. rewrite sess_at_set_same in E3 by lia. destruct (s_out_len s3 <? max_payload); cbn [obind] in E3.
    - destruct (put_len be _ _ _ lpos) as [b3| |]; try discriminate. cbn [obind] in E3.
      destruct (send_once o k _) as [[ok e0]| |]; try discriminate. cbn [obind] in E3. apply ok_inv in E3. destruct E3 as [<- _]. rewrite sess_at_set_same by exact L3. reflexivity.
    - destruct (put_header _ _ m 0) as [[[b0 st0] lp]| |]; try discriminate. cbn [obind] in E3.
      destruct (put_len be _ _ _ lp) as [b3| |]; try discriminate. cbn [obind] in E3. rewrite set_sess_twice in E3.
      match type of E3 with send_with_timeout _ _ _ (set_sess _ _ ?s) = _ => assert (L4 : (k < length (n_sess (set_sess st1 k s)))%nat) by (rewrite length_set_sess; lia) end.
      rewrite (send_epm _ _ _ _ _ _ L4 E3 U). rewrite sess_at_set_same by lia. reflexivity. }
  cbn [step]. rewrite T. unfold release. rewrite U. eexists _, _. split; [reflexivity|]. rewrite sess_at_set_same by exact (used_lt c st' k U). reflexivity.
Qed.
Print Assumptions C95_lookup_partial.

Lemma release_by_ar_frees : forall c i ks st k, s_used (sess_at c st k) = false \/ (In k ks /\ s_from_me (sess_at c st k) = true /\ s_ar (sess_at c st k) = Some i) ->
  s_used (sess_at c (fst (release_by_ar c i ks st)) k) = false.
Proof.
  intros c i ks. induction ks as [|a ks IH]; intros st k H; cbn [release_by_ar]; [destruct H as [H|[[] _]]; exact H|].
  destruct (s_used (sess_at c st k)) eqn:U.
  - destruct H as [H|(I & F1 & F2)]; [discriminate H|]. pose proof (used_lt c st k U) as L. destruct (Nat.eq_dec a k) as [->|D].
    + rewrite U, F1, F2, Nat.eqb_refl. cbn [andb]. unfold release. rewrite U.
      specialize (IH (set_sess st k (blank c)) k). rewrite sess_at_set_same in IH by exact L. specialize (IH (or_introl eq_refl)).
      destruct (release_by_ar c i ks (set_sess st k (blank c))) as [s2 e2]. exact IH.
    + destruct I as [I|I]; [congruence|]. destruct (_ && _); [|apply IH; auto].
      pose proof (release_sessions c a st) as (_ & _ & S1). destruct (release c a st) as [s1 e1]. cbn [fst] in S1. specialize (IH s1 k).
      destruct (S1 k) as [X|[X _]]; [|congruence]. rewrite X in IH. specialize (IH (or_intror (conj I (conj F1 F2)))). destruct (release_by_ar c i ks s1) as [s2 e2]. exact IH.
  - destruct (_ && _); [|apply IH; auto].
    pose proof (release_sessions c a st) as (_ & _ & S1). destruct (release c a st) as [s1 e1]. cbn [fst] in S1. specialize (IH s1 k).
    assert (U1 : s_used (sess_at c s1 k) = false) by (destruct (S1 k) as [X|[_ X]]; rewrite X; [exact U|reflexivity]).
    specialize (IH (or_introl U1)). destruct (release_by_ar c i ks s1) as [s2 e2]. exact IH.
Qed.
Lemma abort_frees : forall c i st, length (n_sess st) = c_sessions c -> ar_at st i <> None ->
  ar_at (fst (abort c i st)) i = None /\
  (forall k, ar_at st i = Some k -> s_release (sess_at c st k) = false -> s_used (sess_at c (fst (abort c i st)) k) = false) /\
  (forall k, s_from_me (sess_at c st k) = true -> s_ar (sess_at c st k) = Some i -> s_used (sess_at c (fst (abort c i st)) k) = false).
Proof.
  intros c i st LS A. pose proof (abort_sessions c i st) as (LA & NA & _).
  split.
  { unfold ar_at in *. rewrite NA. clear -A. revert i A. generalize (n_ar st). intros m. induction m as [|x m IH]; intros [|i] A; cbn in *; try congruence. apply IH. exact A. }
  unfold abort in *. destruct (ar_at st i) as [j|] eqn:AI; [|congruence]. clear A.
  assert (Q : let p := (if s_release (sess_at c st j) then (st, []) else release c j st) in
    length (n_sess (fst p)) = length (n_sess st) /\ (s_release (sess_at c st j) = false -> s_used (sess_at c (fst p) j) = false) /\
    forall k, sess_at c (fst p) k = sess_at c st k \/ (k = j /\ s_used (sess_at c (fst p) k) = false)).
  { cbn zeta. destruct (s_release (sess_at c st j)); [split; [reflexivity|]; split; [congruence|]; auto|].
    pose proof (release_sessions c j st) as (LR & _ & S1). split; [exact LR|]. split.
    - intros _. unfold release. destruct (s_used (sess_at c st j)) eqn:U; [|exact U]. cbn [fst]. rewrite sess_at_set_same by exact (used_lt c st j U). reflexivity.
    - intros k. destruct (S1 k) as [X|[X Y]]; [auto|]. right. split; [exact X|]. rewrite Y. reflexivity. }
  cbn zeta in Q. destruct (if s_release (sess_at c st j) then (st, []) else release c j st) as [st1 e1]. cbn [fst] in Q. destruct Q as (Q1 & Q2 & Q3).
  pose proof (release_by_ar_frees c i (seq 0 (c_sessions c)) st1) as REL. destruct (release_by_ar c i (seq 0 (c_sessions c)) st1) as [st2 e2]. cbn [fst] in *.
  split.
  - intros k K S1. injection K as <-. apply REL. left. apply Q2, S1.
  - intros k F1 F2. apply REL. destruct (Q3 k) as [X|[_ X]]; [rewrite X|left; exact X]. destruct (s_used (sess_at c st k)) eqn:U; [|left; reflexivity].
    pose proof (used_lt c st k U) as L. right. split; [apply in_seq; lia|auto].
Qed.

(** Sessions that a lost connection leaves behind: those that the device opened for it
    are free; the one of the controller is, unless a release was asked for in it (it is
    then freed by the request itself). *)
Theorem C95_aborted : forall c l st i o st' e, cfg_ok c -> reached c l st -> step c (IAbort i, o) st = Ok (st', e) -> ar_at st i <> None ->
  ar_at st' i = None /\
  (forall k, ar_at st i = Some k -> s_release (sess_at c st k) = false -> s_used (sess_at c st' k) = false) /\
  (forall k, s_from_me (sess_at c st k) = true -> s_ar (sess_at c st k) = Some i -> s_used (sess_at c st' k) = false).
Proof.
  intros c l st i o st' e C R E A. pose proof (reached_ok c l st C R) as N. cbn [step] in E. injection E as E. pose proof (f_equal fst E) as E1. cbn [fst] in E1. subst st'.
  apply abort_frees; [apply N|exact A].
Qed.
Print Assumptions C95_aborted.

(** * Violation *)

(** Inputs other than datagrams of the clients in [us]. *)
Definition of_others (us : list uuid) (x : input) : Prop :=
  match x with IDatagram ip port frame len old => forall u, from_client frame len old u -> ~ In u us | _ => True end.

Lemma full_step : forall c us st x, cfg_ok c -> input_ok x -> of_others us (fst x) ->
  (forall s, In s (n_sess st) -> s_used s = true /\ s_resend s = false /\ s_epmtimer s = false /\ In (s_uuid s) us) -> (forall a, In a (n_ar st) -> a = None) ->
  step c x st = Ok (st, []).
Proof.
  intros c us st [x o] C V O F A. cbn [fst] in O.
  assert (AN : forall i, ar_at st i = None) by (intros i; unfold ar_at; destruct (nth_in_or_default i (n_ar st) None) as [I|Q]; [apply A; exact I|exact Q]).
  destruct x as [ip port frame len old|k|k|i|i sock obj]; cbn [step of_others] in *.
  - destruct V as [_ (V2 & V3 & V4)]. unfold datagram. destruct (Z.leb_spec len 0) as [L|L]; [reflexivity|].
    destruct (parse_ok frame len old V2 ltac:(lia) V4) as (h & r & G & _). rewrite G. cbn [obind]. rewrite packet_steps. unfold session_for.
    destruct (locate (n_sess st) 0 (h_activity h)) as [k|] eqn:LC.
    + exfalso. destruct (locate_spec _ _ _ _ LC) as [B1 B2]. specialize (B2 (blank c)). rewrite Nat.sub_0_r in B2. destruct B2 as [_ B2]. apply uuid_eqb_eq in B2.
      apply (O (h_activity h)); [exists h, r; auto|]. rewrite B2. apply F. apply nth_In. lia.
    + unfold allocate. destruct (first_free (n_sess st) 0) as [k|] eqn:FF; [|reflexivity].
      exfalso. destruct (first_free_spec _ _ _ FF) as [B1 B2]. specialize (B2 (blank c)). rewrite Nat.sub_0_r in B2.
      destruct (F (nth k (n_sess st) (blank c)) ltac:(apply nth_In; lia)) as [U _]. congruence.
  - unfold sess_at. destruct (nth_in_or_default k (n_sess st) (blank c)) as [I|Q]; [destruct (F _ I) as (_ & -> & _)|rewrite Q]; reflexivity.
  - unfold sess_at. destruct (nth_in_or_default k (n_sess st) (blank c)) as [I|Q]; [destruct (F _ I) as (_ & _ & -> & _)|rewrite Q]; reflexivity.
  - unfold abort. rewrite AN. reflexivity.
  - unfold ccontrol. rewrite AN. reflexivity.
Qed.

Definition knock (n : Z) : input * hres := (send_to n 50000 9 0 0 0 1 0 uuid_io_device [], plain).
(** One acknowledge, an empty datagram, of each of as many clients as there are sessions,
    and the device answers no other client any more: whatever arrives from other clients,
    and whatever timers do, nothing happens, for ever. *)
Theorem C95_refuted : exists us l st, cfg_ok small /\ reached small l st /\ length l = c_sessions small /\ us = [client 1; client 2; client 3] /\ (forall i, ar_at st i = None) /\
  forall l', Forall input_ok l' -> Forall (fun x => of_others us (fst x)) l' -> run small l' st = Ok (st, []).
Proof.
  set (us := [client 1; client 2; client 3]).
  destruct (checked_ok [knock 1; knock 2; knock 3] (fun st _ =>
    forallb (fun s => s_used s && (negb (s_resend s) && (negb (s_epmtimer s) && existsb (uuid_eqb (s_uuid s)) us))) (n_sess st) && forallb (fun a => match a with None => true | _ => false end) (n_ar st)))
    as (st & e & RC & R & K); [vm_compute; reflexivity|intros x [<-|[<-|[<-|[]]]]; reflexivity|].
  apply andb_prop in K. destruct K as [K1 K2]. rewrite forallb_forall in K1, K2.
  assert (F : forall s, In s (n_sess st) -> s_used s = true /\ s_resend s = false /\ s_epmtimer s = false /\ In (s_uuid s) us).
  { intros s I. specialize (K1 s I). rewrite !andb_true_iff, !negb_true_iff in K1. destruct K1 as (U & D1 & D2 & X). split; [exact U|]. split; [exact D1|]. split; [exact D2|].
    apply existsb_exists in X. destruct X as (u & Y & X). apply uuid_eqb_eq in X. rewrite X. exact Y. }
  assert (A : forall a, In a (n_ar st) -> a = None) by (intros a I; specialize (K2 a I); destruct a; [discriminate K2|reflexivity]).
  exists us, [knock 1; knock 2; knock 3], st. split; [unfold cfg_ok; cbn; lia|]. split; [exact RC|]. split; [reflexivity|]. split; [reflexivity|].
  split; [intros i; unfold ar_at; destruct (nth_in_or_default i (n_ar st) None) as [I|Q]; [apply A; exact I|exact Q]|].
  intros l'. induction l' as [|x l' IH]; intros V O; [reflexivity|]. inversion V; subst. inversion O; subst. cbn [run].
  rewrite (full_step small us st x); [cbn [obind]; rewrite IH by assumption; reflexivity|unfold cfg_ok; cbn; lia|assumption|assumption|exact F|exact A].
Qed.
Print Assumptions C95_refuted.

(** The hypotheses of the theorems are met: a ping of a client that has no session. *)
Example C95_example : exists st h st' e, reached small opened st /\ input_ok foreign /\ has_header (fst foreign) h /\ transient h (snd foreign) /\
  (forall j, s_used (sess_at small st j) = true -> s_uuid (sess_at small st j) <> h_activity h) /\ step small foreign st = Ok (st', e) /\ length (sent_by 1 e) = 1%nat.
Proof.
  destruct (checked_ok opened (fun st _ => only small st (client 1) 0 && (uuid_eqb (s_uuid (sess_at small st 0)) (client 1) && (negb (existsb (fun s => s_used s && uuid_eqb (s_uuid s) (client 2)) (n_sess st)) &&
    stepped foreign st (fun st1 e1 => Nat.eqb (length (sent_by 1 e1)) 1))))) as (st & e & RC & R & K); [vm_compute; reflexivity|intros x [<-|[]]; reflexivity|].
  apply andb_prop in K. destruct K as [K0 K]. apply andb_prop in K. destruct K as [K1 K]. apply andb_prop in K. destruct K as [K2 K].
  apply stepped_ok in K; [|reflexivity]. destruct K as (st1 & e1 & V1 & E1 & K). apply Nat.eqb_eq in K.
  exists st, (header 1 0 0 0 2 0 0 uuid_io_device (client 2)), st1, e1. split; [exact RC|]. split; [exact V1|].
  split; [unfold foreign, has_header, send_to; cbn [fst]; split; [reflexivity|]; eexists; vm_compute; reflexivity|].
  split; [right; split; [reflexivity|]; left; left; reflexivity|]. split; [|split; [exact E1|exact K]].
  intros j U Q. apply negb_true_iff in K2. rewrite <- not_true_iff_false in K2. apply K2. apply existsb_exists. exists (sess_at small st j). split; [apply used_in; exact U|].
  rewrite U, Q. reflexivity.
Qed.
