(** C96: answers go to the client that asked. *)
From Coq Require Import List ZArith Arith Bool Lia.
From Verif Require Import Base CpmModel CpmProps PpmModel PpmProps BlockModel BlockReadLemmas BlockReadProps BlockWriteProps RpcModel RpcLemmas RpcInv RpcStep RpcProps RpcFrame RpcIdent RpcAnswer RpcReply RpcReplyProps.
Import ListNotations.
Local Open Scope Z_scope.

(** * Specification *)

(** The datagrams sent: address, port, content. *)
Fixpoint sends (e : list ev) : list (Z * Z * list Z) :=
  match e with
  | [] => []
  | Sent _ _ ip port b :: t => (ip, port, b) :: sends t
  | _ :: t => sends t
  end.
(** The content is a message of the same client, with the same sequence number and
    operation as message [h]; it is read in the byte order its header declares. *)
Definition answers (h : rpch) (b : list Z) : Prop :=
  exists hb body, decode b = Some (hb, body) /\ h_activity hb = h_activity h /\ h_seq hb = h_seq h /\ h_opnum hb = h_opnum h.

(** * Proof *)
Lemma sends_app : forall a b, sends (a ++ b) = sends a ++ sends b.
Proof. intros a b. induction a as [|x a IH]; [reflexivity|]. destruct x; cbn [Datatypes.app sends]; rewrite ?IH; try reflexivity; exact IH. Qed.
Lemma nosent_sends : forall e, nosent e -> sends e = [].
Proof.
  intros e N. induction e as [|x e IH]; [reflexivity|].
  destruct x; cbn [sends]; try (apply IH; intros j; exact (N j)). specialize (N k). cbn [sent_by] in N. rewrite Nat.eqb_refl in N. discriminate.
Qed.
(** At most one datagram, to the peer of the session. *)
Definition to_peer (s : sess) (e : list ev) : Prop := sends e = [] \/ exists b, sends e = [(s_ip s, s_port s, b)].
Lemma buffer_peer : forall o k s b, to_peer s (snd (send_buffer o k s b)).
Proof. intros o k s b. unfold send_buffer. destruct b; [left; reflexivity|]. destruct (_ || _); [left; reflexivity|right; eexists; reflexivity]. Qed.
Lemma once_peer : forall o k s ok e, send_once o k s = Ok (ok, e) -> to_peer s e.
Proof.
  intros o k s ok e E. unfold send_once in E. destruct (slice _ _ _) as [b| |]; try discriminate. cbn [obind] in E.
  pose proof (buffer_peer o k s b) as P. injection E as E. rewrite E in P. exact P.
Qed.
Lemma peer_same : forall s s' e, s_ip s' = s_ip s -> s_port s' = s_port s -> to_peer s e -> to_peer s' e.
Proof. intros s s' e A B [P|[b P]]; [left; exact P|right; exists b; rewrite A, B; exact P]. Qed.
Lemma send_peer : forall c o k st st' e, send_with_timeout c o k st = Ok (st', e) -> to_peer (sess_at c st k) e.
Proof.
  intros c o k st st' e E. unfold send_with_timeout in E. cbn zeta in E. destruct (_ <? 0); [apply ok_inv in E; destruct E as [_ <-]; left; reflexivity|].
  destruct (0 <? _).
  - destruct (send_once o k _) as [[ok e0]| |] eqn:S1; try discriminate. cbn [obind] in E. apply ok_inv in E. destruct E as [_ <-].
    apply once_peer in S1. exact (peer_same _ _ _ eq_refl eq_refl S1).
  - destruct (s_ar _) as [i|]; [|discriminate].
    match type of E with context [abort c i ?q] => pose proof (nosent_sends _ (abort_nosent c i q)) as A; destruct (abort c i q) as [st2 e2] end. cbn [snd] in A.
    destruct (_ && _); apply ok_inv in E; destruct E as [_ <-]; left; rewrite ?sends_app, A; reflexivity.
Qed.
Lemma request_send_peer : forall c o k h m a b be st st' e, (k < length (n_sess st))%nat -> request_send c o k h m a b be st = Ok (st', e) -> to_peer (sess_at c st k) e.
Proof.
  intros c o k h m a b be st st' e L E. unfold request_send in E. cbn zeta in E.
  destruct (s_out_len (sess_at c st k) <? max_payload); cbn [obind] in E.
  - destruct (put_len be _ _ _ b) as [b3| |]; try discriminate. cbn [obind] in E.
    destruct (send_once o k _) as [[ok e0]| |] eqn:S1; try discriminate. cbn [obind] in E. apply ok_inv in E. destruct E as [_ <-].
    apply once_peer in S1. exact (peer_same _ _ _ eq_refl eq_refl S1).
  - destruct (put_header _ _ m 0) as [[[b0 p] lp]| |]; try discriminate. cbn [obind] in E.
    destruct (put_len be _ _ _ lp) as [b3| |]; try discriminate. cbn [obind] in E.
    apply send_peer in E. rewrite sess_at_set_same in E by exact L. exact (peer_same _ _ _ eq_refl eq_refl E).
Qed.
Lemma next_fragment_peer : forall c o k h r st st' e, (k < length (n_sess st))%nat -> next_fragment c o k h r st = Ok (st', e) -> to_peer (sess_at c st k) e.
Proof.
  intros c o k h r st st' e L E. unfold next_fragment in E. cbn zeta in E.
  destruct (_ <? s_out_len _).
  - repeat match type of E with
      | (do x <- ?a; _) = _ => let F := fresh in destruct a as [[[? ?] ?]| |] eqn:F; try discriminate; cbn [obind] in E
      | (do x <- ?a; _) = _ => let F := fresh in destruct a as [?| |] eqn:F; try discriminate; cbn [obind] in E
      end.
    apply send_peer in E. rewrite sess_at_set_same in E by exact L. exact (peer_same _ _ _ eq_refl eq_refl E).
  - apply ok_inv in E. destruct E as [_ <-]. left. reflexivity.
Qed.

(** If the handler of a request ends the connection with its session, nothing is sent. *)
Lemma handle_socket : forall c o k h r st, (k < length (n_sess st))%nat ->
  let '(st2, e, _) := handle c o k h r st in
  same_out (sess_at c st k) (sess_at c st2 k) \/ s_socket (sess_at c st2 k) = -1.
Proof.
  intros c o k h r st L. unfold handle. destruct (uuid_eqb (h_interface h) uuid_io_device).
  - pose proof (rpc_request_touches c o k h r st L) as H. destruct (rpc_request c o k h r st) as [[st2 e] p]. cbn [fst snd] in H.
    destruct H as (_ & H2 & _). destruct H2 as [H2|[H2 N]]; [left; apply same_out_tweak; exact H2|right].
    destruct H2 as (a & b & d & f & ->). reflexivity.
  - destruct (uuid_eqb (h_interface h) uuid_epmap).
    + cbn zeta. left. rewrite sess_at_set_same by exact L.
      repeat match goal with |- context [if ?b then _ else _] => destruct b end; unfold same_out; cbn; tauto.
    + left. apply same_out_refl.
Qed.
Lemma once_closed : forall o k s ok e, s_socket s < 0 -> send_once o k s = Ok (ok, e) -> sends e = [].
Proof.
  intros o k s ok e G E. unfold send_once in E. destruct (slice _ _ _) as [b| |]; try discriminate. cbn [obind] in E. injection E as E. unfold send_buffer in E.
  destruct b; [injection E as _ <-; reflexivity|]. destruct (Z.ltb_spec (s_socket s) 0); [|lia]. injection E as _ <-. reflexivity.
Qed.
Lemma request_send_closed : forall c o k h m a b be st st' e, (k < length (n_sess st))%nat -> s_socket (sess_at c st k) < 0 ->
  request_send c o k h m a b be st = Ok (st', e) -> sends e = [].
Proof.
  intros c o k h m a b be st st' e L G E. unfold request_send in E. cbn zeta in E.
  destruct (s_out_len (sess_at c st k) <? max_payload); cbn [obind] in E.
  - destruct (put_len be _ _ _ b) as [b3| |]; try discriminate. cbn [obind] in E.
    destruct (send_once o k _) as [[ok e0]| |] eqn:S1; try discriminate. cbn [obind] in E. apply ok_inv in E. destruct E as [_ <-].
    refine (once_closed _ _ _ _ _ _ S1). exact G.
  - destruct (put_header _ _ m 0) as [[[b0 p] lp]| |]; try discriminate. cbn [obind] in E.
    destruct (put_len be _ _ _ lp) as [b3| |]; try discriminate. cbn [obind] in E.
    unfold send_with_timeout in E. rewrite sess_at_set_same in E by exact L. cbn [s_socket with_resend with_out] in E.
    destruct (Z.ltb_spec (s_socket (sess_at c st k)) 0); [|lia]. apply ok_inv in E. destruct E as [_ <-]. reflexivity.
Qed.

Lemma answer_request_peer : forall c o k h r st st' e, (k < length (n_sess st))%nat -> answer_request c o k h r st = Ok (st', e) -> to_peer (sess_at c st k) e.
Proof.
  intros c o k h r st st' e L E. unfold answer_request in E.
  destruct (request_limit c h r) as [[[m r1] be]| |]; try discriminate. cbn [obind] in E.
  destruct (request_start c o k h m be st) as [[[st1 start] lpos]| |] eqn:E1; try discriminate. cbn [obind] in E.
  assert (A : exists s1, st1 = set_sess st k s1 /\ s_ip s1 = s_ip (sess_at c st k) /\ s_port s1 = s_port (sess_at c st k)).
  { unfold request_start in E1. cbn zeta in E1. destruct (put_header _ _ m 0) as [[[b0 st0] lp]| |]; try discriminate. cbn [obind] in E1.
    destruct (poke _ _ _) as [b1| |]; try discriminate. cbn [obind] in E1. injection E1 as <- _ _. eexists. split; [reflexivity|].
    destruct (h_opnum h =? op_release); cbn; auto. }
  destruct A as (s1 & -> & Q1 & Q2). assert (L1 : (k < length (n_sess (set_sess st k s1)))%nat) by (rewrite length_set_sess; exact L).
  pose proof (handle_socket c o k h (set_be r1 be) (set_sess st k s1) L1) as HO. pose proof (handle_out c o k h (set_be r1 be) (set_sess st k s1) L1) as HL.
  pose proof (handle_nosent c o k h (set_be r1 be) (set_sess st k s1)) as HN.
  destruct (handle c o k h (set_be r1 be) (set_sess st k s1)) as [[st2 e1] prm]. cbn [fst snd] in *. destruct HL as (L2' & _).
  assert (L2 : (k < length (n_sess st2))%nat) by (rewrite L2'; exact L1).
  destruct (request_send c o k h m start lpos be st2) as [[st3 e2]| |] eqn:E2; try discriminate. cbn [obind] in E. apply ok_inv in E. destruct E as [_ <-].
  unfold to_peer. rewrite !sends_app, (nosent_sends _ HN). cbn [Datatypes.app].
  assert (NP : sends (if prm then match s_ar (sess_at c st3 k) with Some i => [ParamEnd i] | None => [] end else []) = []).
  { destruct prm; [|reflexivity]. destruct (s_ar _); reflexivity. }
  rewrite NP, app_nil_r. destruct HO as [HO|HO].
  - apply request_send_peer in E2; [|exact L2]. rewrite sess_at_set_same in HO by exact L. unfold same_out in HO. decompose [and] HO.
    apply (peer_same _ (sess_at c st k)) in E2; [exact E2|congruence|congruence].
  - left. refine (request_send_closed _ _ _ _ _ _ _ _ _ _ _ L2 _ E2). rewrite HO. lia.
Qed.

Lemma act_peer : forall c o k fresh h r st st' e, (k < length (n_sess st))%nat -> act c o k fresh h r st = Ok (st', e) -> to_peer (sess_at c st k) e.
Proof.
  intros c o k fresh h r st st' e L E. unfold act in E. cbn zeta in E.
  destruct (h_ptype h =? pt_ping).
  { unfold answer_ping in E. destruct (put_header _ _ _ 0) as [[[b0 p] lp]| |]; try discriminate. cbn [obind] in E.
    destruct (slice b0 0 p) as [d| |]; try discriminate. cbn [obind] in E. apply ok_inv in E. destruct E as [_ <-]. apply buffer_peer. }
  destruct (h_ptype h =? pt_request).
  { apply answer_request_peer in E; [|rewrite length_set_sess; exact L]. rewrite sess_at_set_same in E by exact L. exact (peer_same _ _ _ eq_refl eq_refl E). }
  destruct (h_ptype h =? pt_frag_ack); [eapply next_fragment_peer; eassumption|].
  destruct (h_ptype h =? pt_response).
  { unfold response in E. destruct fresh; [apply ok_inv in E; destruct E as [_ <-]; left; reflexivity|].
    destruct (get_ndr r) as [[nd r1]| |]; try discriminate. cbn [obind] in E. destruct (_ =? _); [|apply ok_inv in E; destruct E as [_ <-]; left; reflexivity].
    destruct (s_ar _); [|discriminate]. apply ok_inv in E. destruct E as [_ <-]. left; reflexivity. }
  destruct (_ || _); [|apply ok_inv in E; destruct E as [_ <-]; left; reflexivity].
  unfold cancel in E. left.
  assert (A : sends (snd (match s_ar (sess_at c st k) with Some i => abort c i st | None => (st, []) end)) = []).
  { destruct (s_ar _); [apply nosent_sends, abort_nosent|reflexivity]. }
  destruct (match s_ar (sess_at c st k) with Some i => abort c i st | None => (st, []) end) as [st1 e1]. apply ok_inv in E. destruct E as [_ <-]. exact A.
Qed.

(** The session after the fragment was stored. *)
Lemma collect_peer : forall c ip port h frame r s s1 r1, collect c ip port h frame r s = Ok (s1, r1) ->
  if (h_frag h =? 0) || (h_fragnmb h =? 0) then s_ip s1 = ip /\ s_port s1 = port else s_ip s1 = s_ip s /\ s_port s1 = s_port s.
Proof.
  intros c ip port h frame r s s1 r1 E. unfold collect in E. destruct (h_frag h =? 0); [apply ok_inv in E; destruct E as [<- _]; cbn; auto|]. cbn [orb] in *.
  set (s0 := if h_fragnmb h =? 0 then begin_message ip port h s else if Bool.eqb (s_be s) (h_be h) then s else with_err s true) in *.
  assert (P : if h_fragnmb h =? 0 then s_ip s0 = ip /\ s_port s0 = port else s_ip s0 = s_ip s /\ s_port s0 = s_port s).
  { unfold s0. destruct (h_fragnmb h =? 0); [cbn; auto|]. destruct (Bool.eqb _ _); cbn; auto. }
  cbn zeta in E. destruct (negb _); [apply ok_inv in E; destruct E as [<- _]; exact P|].
  destruct (c_buf c <? _); [apply ok_inv in E; destruct E as [<- _]; exact P|].
  destruct (slice _ _ _) as [d| |]; try discriminate. cbn [obind] in E. destruct (poke _ _ _) as [b| |]; try discriminate. cbn [obind] in E.
  apply ok_inv in E. destruct E as [<- _]. exact P.
Qed.

(** * C96 *)

(** Every input causes at most one datagram. *)
Theorem C96_one : forall c l st x st' e, cfg_ok c -> reached c l st -> input_ok x -> step c x st = Ok (st', e) -> (length (sends e) <= 1)%nat.
Proof.
  intros c l st [x o] st' e C R V E. pose proof (reached_ok c l st C R) as N.
  assert (Q : forall s e, to_peer s e -> (length (sends e) <= 1)%nat) by (intros s e0 [->|[b ->]]; cbn; lia).
  destruct x as [ip port frame len old|k|k|i|i sock obj]; cbn [step] in E.
  - unfold datagram in E. destruct (len <=? 0); [apply ok_inv in E; destruct E as [_ <-]; cbn; lia|].
    destruct (get_dce_rpc_header old old old _) as [[h r]| |]; try discriminate. cbn [obind] in E. rewrite packet_steps in E.
    destruct (session_for c o ip port h st) as [[[k fresh] st1]|] eqn:SF; [|apply ok_inv in E; destruct E as [_ <-]; cbn; lia].
    destruct (session_for_ok _ _ _ _ _ _ _ _ _ C N SF) as (N1 & L1 & _).
    apply session_step_inv in E. destruct E as (s1 & r1 & st3 & e3 & E1 & E2 & E3). cbn zeta in *.
    assert (P : (length (sends e3) <= 1)%nat).
    { destruct (max_body <? h_bodylen h).
      - destruct E2 as [E2 _]. unfold answer_reject in E2. destruct (put_header _ _ _ 0) as [[[b0 p] lp]| |]; try discriminate. cbn [obind] in E2.
        destruct (put_u32 _ _ _) as [w| |]; try discriminate. cbn [obind] in E2. destruct (w_buf w); try discriminate. destruct (slice _ _ _) as [d| |]; try discriminate. cbn [obind] in E2.
        injection E2 as <-. eapply Q. apply buffer_peer.
      - destruct (_ || _); [eapply Q; eapply act_peer; [|exact E2]; rewrite length_set_sess; exact L1|].
        destruct (h_nofack h =? 0); [|destruct E2 as [-> _]; cbn; lia]. destruct E2 as [E2 _].
        unfold answer_ack in E2. destruct (put_header _ _ _ 0) as [[[b0 p] lp]| |]; try discriminate. cbn [obind] in E2.
        destruct (slice _ _ _) as [d| |]; try discriminate. cbn [obind] in E2. injection E2 as <-. eapply Q. apply buffer_peer. }
    destruct (s_kill (sess_at c st3 k)); destruct E3 as [_ ->]; [|exact P]. rewrite sends_app, (nosent_sends _ (release_nosent c k st3)), app_nil_r. exact P.
  - destruct (s_resend _); [|apply ok_inv in E; destruct E as [_ <-]; cbn; lia]. apply send_peer in E. eapply Q. exact E.
  - destruct (s_epmtimer _); [|apply ok_inv in E; destruct E as [_ <-]; cbn; lia].
    pose proof (nosent_sends _ (release_nosent c k st)) as A. destruct (release c k st). apply ok_inv in E. destruct E as [_ <-]. cbn [snd] in A. rewrite A. cbn. lia.
  - pose proof (nosent_sends _ (abort_nosent c i st)) as A. destruct (abort c i st). apply ok_inv in E. destruct E as [_ <-]. cbn [snd] in A. rewrite A. cbn. lia.
  - destruct (ccontrol_shape _ _ _ _ _ _ _ _ E) as [[_ ->]|(k & s1 & F & _ & _ & _ & _ & _ & E1)]; [cbn; lia|]. apply send_peer in E1. eapply Q. exact E1.
Qed.
Print Assumptions C96_one.

(** What is sent because of a message in one datagram, or of the first fragment of a
    message, goes to the address and port it came from. *)
Theorem C96_address_partial : forall c l st ip port frame len old o st' e h r, cfg_ok c -> reached c l st -> input_ok (IDatagram ip port frame len old, o) ->
  get_dce_rpc_header old old old (mkRd (Some frame) len false POk 0) = Ok (h, r) -> h_bodylen h <= 1384 -> h_frag h = 0 \/ h_fragnmb h = 0 ->
  step c (IDatagram ip port frame len old, o) st = Ok (st', e) ->
  forall i p b, In (i, p, b) (sends e) -> i = ip /\ p = port.
Proof.
  intros c l st ip port frame len old o st' e h r C R V G B F E i p b I0. pose proof (reached_ok c l st C R) as N. cbn [step] in E.
  unfold datagram in E. destruct (len <=? 0); [apply ok_inv in E; destruct E as [_ <-]; destruct I0|]. rewrite G in E. cbn [obind] in E. rewrite packet_steps in E.
  destruct (session_for c o ip port h st) as [[[k fresh] st1]|] eqn:SF; [|apply ok_inv in E; destruct E as [_ <-]; destruct I0].
  destruct (session_for_ok _ _ _ _ _ _ _ _ _ C N SF) as (N1 & L1 & _).
  apply session_step_inv in E. destruct E as (s1 & r1 & st3 & e3 & E1 & E2 & E3). cbn zeta in *. change max_body with 1384 in *.
  destruct (Z.ltb_spec 1384 (h_bodylen h)); [lia|]. apply collect_peer in E1.
  assert (FF : (h_frag h =? 0) || (h_fragnmb h =? 0) = true) by (destruct F as [->| ->]; cbn; rewrite ?orb_true_r; reflexivity).
  rewrite FF in E1. destruct E1 as [P1 P2]. set (s2 := with_resend s1 false (s_counter s1)) in *.
  assert (P : to_peer s2 e3).
  { destruct (_ || _).
    - apply act_peer in E2; [|rewrite length_set_sess; exact L1]. rewrite sess_at_set_same in E2 by exact L1. exact E2.
    - destruct (h_nofack h =? 0); [|destruct E2 as [-> _]; left; reflexivity]. destruct E2 as [E2 _].
      unfold answer_ack in E2. destruct (put_header _ _ _ 0) as [[[b0 p0] lp]| |]; try discriminate. cbn [obind] in E2.
      destruct (slice _ _ _) as [d| |]; try discriminate. cbn [obind] in E2. injection E2 as <-. apply buffer_peer. }
  assert (SE : sends e = sends e3).
  { destruct (s_kill (sess_at c st3 k)); destruct E3 as [_ ->]; [|reflexivity]. rewrite sends_app, (nosent_sends _ (release_nosent c k st3)), app_nil_r. reflexivity. }
  rewrite SE in I0. destruct P as [P|[d P]]; rewrite P in I0; [destruct I0|]. destruct I0 as [I0|[]]. injection I0 as <- <- _. split; [exact P1|exact P2].
Qed.
Print Assumptions C96_address_partial.

(** Content of the answers. *)
Definition all_answer (h : rpch) (e : list ev) : Prop := forall i p b, In (i, p, b) (sends e) -> answers h b.
Lemma all_nil : forall h e, sends e = [] -> all_answer h e.
Proof. intros h e Q i p b I0. rewrite Q in I0. destruct I0. Qed.
Lemma buffer_answer : forall o k s h b, answers h b -> all_answer h (snd (send_buffer o k s b)).
Proof.
  intros o k s h b A i p d I0. unfold send_buffer in I0. destruct b as [|x y]; [destruct I0|]. destruct (_ || _); [destruct I0|].
  destruct I0 as [I0|[]]. injection I0 as _ _ <-. exact A.
Qed.
Lemma header_answers : forall h hb b, rpch_ok hb -> Z.of_nat (length b) < 65456 -> h_activity hb = h_activity h -> h_seq hb = h_seq h -> h_opnum hb = h_opnum h ->
  answers h (hbytes hb ++ b).
Proof. intros h hb b O L A S1 P. exists hb, b. split; [apply decode_ok; assumption|auto]. Qed.
Lemma send_answer : forall c o k st st' e h, 0 < s_counter (sess_at c st k) -> answers h (current (sess_at c st k)) ->
  send_with_timeout c o k st = Ok (st', e) -> all_answer h e.
Proof.
  intros c o k st st' e h K A E. unfold send_with_timeout in E. cbn zeta in E. destruct (_ <? 0); [apply ok_inv in E; destruct E as [_ <-]; apply all_nil; reflexivity|].
  destruct (Z.ltb_spec 0 (s_counter (sess_at c st k))); [|lia]. unfold send_once in E.
  destruct (slice _ _ _) as [b| |] eqn:SL; try discriminate. cbn [obind] in E.
  assert (EB : b = current (sess_at c st k)).
  { unfold slice in SL. cbn [s_out s_send_len with_resend] in SL. destruct (_ && _); [|discriminate]. injection SL as <-. reflexivity. }
  rewrite EB in E. match type of E with context [send_buffer o k ?q ?d] => pose proof (buffer_answer o k q h d A) as B; destruct (send_buffer o k q d) as [ok e0] end.
  apply ok_inv in E. destruct E as [_ <-]. exact B.
Qed.

(** There is room for a header in the answer: the request is for the endpoint mapper,
    or the controller allows it. *)
Definition has_room (h : rpch) (r : rd) : Prop :=
  h_interface h = uuid_epmap \/ exists nd r1, get_ndr r = Ok (nd, r1) /\ 80 <= r_pos r1 + n_argsmax nd < 4294967296.
Lemma room_limit : forall c h r m r1 be, cfg_ok c -> has_room h r -> request_limit c h r = Ok (m, r1, be) -> 80 <= m <= c_buf c.
Proof.
  intros c h r m r1 be C R E. unfold cfg_ok in C. unfold request_limit in E. destruct (uuid_eqb (h_interface h) uuid_epmap) eqn:U; [injection E as <- _ _; lia|].
  destruct R as [R|(nd & r2 & G & R)]; [rewrite R in U; discriminate|]. rewrite G in E. cbn [obind] in E. injection E as <- _ _.
  rewrite (u32_id (r_pos r2 + n_argsmax nd)) by lia. destruct (Z.ltb_spec (c_buf c) (r_pos r2 + n_argsmax nd)); [lia|]. rewrite u16_id by lia. lia.
Qed.

Lemma answer_request_answers : forall c o k h r st st' e, cfg_ok c -> net_ok c st -> hdr_in h -> (k < length (n_sess st))%nat -> has_room h r ->
  answer_request c o k h r st = Ok (st', e) -> all_answer h e.
Proof.
  intros c o k h r st st' e C N H L RM E. unfold answer_request in E.
  destruct (request_limit c h r) as [[[m r1] be]| |] eqn:EL; try discriminate. cbn [obind] in E.
  pose proof (room_limit c h r m r1 be C RM EL) as M.
  rewrite request_start_exact in E by (try assumption; try (apply N)). cbn [obind] in E.
  pose proof (proj2 N k) as SS. set (s := sess_at c st k) in *. set (sA := request_session o h m be s) in *.
  assert (LA : (k < length (n_sess (set_sess st k sA)))%nat) by (rewrite length_set_sess; exact L).
  pose proof (handle_socket c o k h (set_be r1 be) (set_sess st k sA) LA) as HO. pose proof (handle_out c o k h (set_be r1 be) (set_sess st k sA) LA) as HL.
  pose proof (handle_nosent c o k h (set_be r1 be) (set_sess st k sA)) as HN.
  destruct (handle c o k h (set_be r1 be) (set_sess st k sA)) as [[st2 e1] prm]. cbn [fst snd] in *. destruct HL as (L2' & _).
  assert (L2 : (k < length (n_sess st2))%nat) by (rewrite L2'; exact LA).
  destruct (request_send c o k h m 80 74 be st2) as [[st3 e2]| |] eqn:E2; try discriminate. cbn [obind] in E. apply ok_inv in E. destruct E as [_ <-].
  assert (NP : sends (if prm then match s_ar (sess_at c st3 k) with Some i => [ParamEnd i] | None => [] end else []) = []).
  { destruct prm; [|reflexivity]. destruct (s_ar _); reflexivity. }
  assert (SE : sends (e1 ++ e2 ++ (if prm then match s_ar (sess_at c st3 k) with Some i => [ParamEnd i] | None => [] end else [])) = sends e2).
  { rewrite !sends_app, (nosent_sends _ HN), NP, app_nil_r. reflexivity. }
  unfold all_answer. rewrite SE. change (all_answer h e2).
  rewrite sess_at_set_same in HO by exact L. destruct HO as [HO|HO].
  2:{ apply all_nil. refine (request_send_closed _ _ _ _ _ _ _ _ _ _ _ L2 _ E2). rewrite HO. lia. }
  unfold cfg_ok in C.
  rewrite (request_send_exact c o k h m be st2 s C SS H M L2 HO) in E2. cbn zeta in E2.
  pose proof (body_length o h m ltac:(lia)) as BL. set (t := body_of o h m) in *. set (z := Z.of_nat (length t)) in *.
  pose proof (whole_header_ok h be z H ltac:(lia)) as OKW. pose proof (first_header_ok h be H) as OKF.
  destruct (Z.ltb_spec (80 + z) 1440) as [GG|GG].
  - apply ok_inv in E2. destruct E2 as [_ <-]. apply buffer_answer. apply header_answers; try reflexivity; [exact OKW|unfold z in *; lia].
  - refine (send_answer _ _ _ _ _ _ h _ _ E2); rewrite sess_at_set_same by exact L2; [unfold sent_first; cbn [s_counter with_resend]; lia|].
    unfold current, sent_first. cbn [s_send_len s_out with_resend with_out]. fold t. change (Z.to_nat 1440) with (80 + 1360)%nat.
    rewrite firstn_app, (hbytes_length _ OKF), firstn_all2 by (rewrite (hbytes_length _ OKF); lia).
    replace (80 + 1360 - 80)%nat with 1360%nat by lia. apply header_answers; try reflexivity; [exact OKF|]. rewrite firstn_length. lia.
Qed.
Lemma next_fragment_answers : forall c o k h r st st' e, cfg_ok c -> net_ok c st -> hdr_in h -> (k < length (n_sess st))%nat ->
  next_fragment c o k h r st = Ok (st', e) -> all_answer h e.
Proof.
  intros c o k h r st st' e C N H L E. pose proof (proj2 N k) as S1. set (s := sess_at c st k) in *.
  destruct (Z.lt_ge_cases (next_pos s) (s_out_len s)) as [M|M].
  - rewrite next_fragment_more in E by assumption. fold s in E. refine (send_answer _ _ _ _ _ _ h _ _ E); rewrite sess_at_set_same by exact L; [reflexivity|].
    rewrite (next_sent c h r s C H S1 M).
    pose proof S1 as (I1 & I2 & I3 & I4 & I5 & I6). destruct (more_facts c s C I5 M) as (P & F & LE & SE & NS & NP & LA & LB). unfold cfg_ok in C.
    unfold next_bytes. apply header_answers; try reflexivity; [apply next_header_ok; [exact H|apply next_last_flag|lia|lia]|]. rewrite firstn_length. lia.
  - unfold next_fragment in E. cbn zeta in E. destruct (next_pos_model c s C (proj1 (proj2 (proj2 (proj2 (proj2 S1)))))) as (EP & _). fold s in E. rewrite EP in E.
    destruct (Z.ltb_spec (next_pos s) (s_out_len s)); [lia|]. apply ok_inv in E. destruct E as [_ <-]. apply all_nil. reflexivity.
Qed.

Lemma act_answers : forall c o k fresh h r st st' e, cfg_ok c -> net_ok c st -> hdr_in h -> (k < length (n_sess st))%nat -> h_ptype h <> 0 \/ has_room h r ->
  act c o k fresh h r st = Ok (st', e) -> all_answer h e.
Proof.
  intros c o k fresh h r st st' e C N H L RM E. unfold act in E. cbn zeta in E. pose proof (proj2 N k) as S2. set (s2 := sess_at c st k) in *. clearbody s2.
  destruct (Z.eqb_spec (h_ptype h) pt_ping).
  { rewrite answer_ping_ok in E by exact H. cbn [obind] in E. apply ok_inv in E. destruct E as [_ <-]. apply buffer_answer.
    rewrite <- (app_nil_r (hbytes _)). apply header_answers; try reflexivity. apply (simple_headers_ok h (s_be s2) H). }
  destruct (Z.eqb_spec (h_ptype h) pt_request) as [T|T].
  { refine (answer_request_answers c o k h r _ st' e C _ H _ _ E); [|rewrite !length_set_sess; exact L|destruct RM as [RM|RM]; [unfold pt_request in T; lia|exact RM]].
    apply set_ok; [exact N|]. destruct S2 as (B1 & B2 & B3 & B4 & B5 & B6). unfold cfg_ok in C. unfold sess_ok, out_ok. cbn [s_in s_out s_in_len s_in_frag s_out_len s_out_frag s_sent_pos s_send_len s_counter with_out].
    split; [exact B1|]. split; [exact B2|]. split; [exact B3|]. split; [exact B4|]. split; [split; [lia|left; lia]|exact B6]. }
  destruct (h_ptype h =? pt_frag_ack); [exact (next_fragment_answers c o k h r _ st' e C N H L E)|].
  apply all_nil. destruct (h_ptype h =? pt_response).
  { unfold response in E. destruct fresh; [apply ok_inv in E; destruct E as [_ <-]; reflexivity|].
    destruct (get_ndr r) as [[nd r1]| |]; try discriminate. cbn [obind] in E. destruct (_ =? _); [|apply ok_inv in E; destruct E as [_ <-]; reflexivity].
    destruct (s_ar _); [|discriminate]. apply ok_inv in E. destruct E as [_ <-]. reflexivity. }
  destruct (_ || _); [|apply ok_inv in E; destruct E as [_ <-]; reflexivity].
  unfold cancel in E.
  assert (A : sends (snd (match s_ar (sess_at c st k) with Some i => abort c i st | None => (st, []) end)) = []).
  { destruct (s_ar _); [apply nosent_sends, abort_nosent|reflexivity]. }
  destruct (match s_ar (sess_at c st k) with Some i => abort c i st | None => (st, []) end) as [st4 e4]. apply ok_inv in E. destruct E as [_ <-]. exact A.
Qed.
Lemma one_datagram : forall c ip port h frame r s, h_frag h = 0 -> collect c ip port h frame r s = Ok (begin_message ip port h s, r).
Proof. intros c ip port h frame r s F. unfold collect. rewrite F. reflexivity. Qed.
Lemma packet_answers : forall c o ip port frame h r st st' e, cfg_ok c -> net_ok c st -> hdr_in h -> h_bodylen h <= 1384 -> h_frag h = 0 ->
  h_ptype h <> 0 \/ has_room h r -> packet c o ip port frame h r st = Ok (st', e) -> all_answer h e.
Proof.
  intros c o ip port frame h r st st' e C N H B F RM E. rewrite packet_steps in E.
  destruct (session_for c o ip port h st) as [[[k fresh] st1]|] eqn:SF; [|apply ok_inv in E; destruct E as [_ <-]; apply all_nil; reflexivity].
  destruct (session_for_ok _ _ _ _ _ _ _ _ _ C N SF) as (N1 & L1 & _).
  apply session_step_inv in E. destruct E as (s1 & r1 & st3 & e3 & E1 & E2 & E3). cbn zeta in *.
  replace (max_body <? h_bodylen h) with false in * by (symmetry; apply Z.ltb_ge; exact B). rewrite (one_datagram c ip port h frame r _ F) in E1. apply ok_inv in E1. destruct E1 as [E1 <-].
  assert (S1 : sess_ok c s1) by (rewrite <- E1; apply begin_ok; [exact C|exact (proj2 N1 k)]). clear E1.
  rewrite F in E2. cbn [Z.eqb orb] in E2.
  set (s2 := with_resend s1 false (s_counter s1)) in *. assert (S2 : sess_ok c s2) by exact S1. clearbody s2.
  assert (A3 : all_answer h e3).
  { refine (act_answers c o k fresh h r _ st3 e3 C (set_ok c st1 k s2 N1 S2) H _ RM E2). rewrite length_set_sess. exact L1. }
  assert (SE : sends e = sends e3).
  { destruct (s_kill (sess_at c st3 k)); destruct E3 as [_ ->]; [|reflexivity]. rewrite sends_app, (nosent_sends _ (release_nosent c k st3)), app_nil_r. reflexivity. }
  unfold all_answer. rewrite SE. exact A3.
Qed.

(** What is sent because of a message in one datagram carries its activity UUID,
    sequence number and operation. *)
Theorem C96_identity_partial : forall c l st ip port frame len old o st' e h r, cfg_ok c -> reached c l st -> input_ok (IDatagram ip port frame len old, o) ->
  get_dce_rpc_header old old old (mkRd (Some frame) len false POk 0) = Ok (h, r) -> h_bodylen h <= 1384 -> h_frag h = 0 -> h_ptype h <> 0 \/ has_room h r ->
  step c (IDatagram ip port frame len old, o) st = Ok (st', e) ->
  forall i p b, In (i, p, b) (sends e) -> i = ip /\ p = port /\ answers h b.
Proof.
  intros c l st ip port frame len old o st' e h r C R V G B F RM E i p b I0.
  destruct (C96_address_partial c l st ip port frame len old o st' e h r C R V G B (or_introl F) E i p b I0) as [P1 P2]. split; [exact P1|]. split; [exact P2|].
  pose proof (reached_ok c l st C R) as N. cbn [step] in E. destruct V as [V1 (V2 & V3 & V4)]. cbn [fst snd] in *.
  unfold datagram in E. destruct (Z.leb_spec len 0) as [LL|LL]; [apply ok_inv in E; destruct E as [_ <-]; destruct I0|].
  destruct (parse_ok frame len old V2 ltac:(lia) V4) as (h' & r' & G' & H & RO & _). rewrite G in E, G'. cbn [obind] in E.
  apply ok_inv in G'. destruct G' as [<- <-].
  exact (packet_answers c o ip port frame h r st st' e C N H B F RM E i p b I0).
Qed.
Print Assumptions C96_identity_partial.

(** Concrete case: a request that is answered. *)
Definition answer_check (h : rpch) (b : list Z) : bool :=
  match decode b with Some (hb, _) => uuid_eqb (h_activity hb) (h_activity h) && (h_seq hb =? h_seq h) && (h_opnum hb =? h_opnum h) | None => false end.
Lemma answer_check_ok : forall h b, answer_check h b = true <-> answers h b.
Proof.
  intros h b. unfold answer_check, answers. split.
  - destruct (decode b) as [[hb body]|]; [|discriminate]. rewrite !andb_true_iff, !Z.eqb_eq, uuid_eqb_eq. intros ((H1 & H2) & H3). exists hb, body. auto.
  - intros (hb & body & -> & H1 & H2 & H3). rewrite H1, H2, H3, !Z.eqb_refl, (proj2 (uuid_eqb_eq _ _) eq_refl). reflexivity.
Qed.
Definition datum (x : input) : list Z := match x with IDatagram _ _ f _ _ => f | _ => [] end.
Definition alone (e : list ev) (ip port : Z) : bool := match sends e with [(i, p, _)] => (i =? ip) && (p =? port) | _ => false end.
Lemma alone_ok : forall e ip port, alone e ip port = true -> exists b, sends e = [(ip, port, b)].
Proof.
  intros e ip port H. unfold alone in H. destruct (sends e) as [|[[i p] b] [|y l]]; try discriminate H. apply andb_prop in H. destruct H as [H1 H2].
  apply Z.eqb_eq in H1, H2. subst. eauto.
Qed.
Example C96_example : exists st st' e r b, reached small opened st /\ input_ok (question [1; 2; 3]) /\
  fst (question [1; 2; 3]) = IDatagram 1 50001 (datum (fst (question [1; 2; 3]))) 100 (repeat 0 8) /\
  get_dce_rpc_header (repeat 0 8) (repeat 0 8) (repeat 0 8) (mkRd (Some (datum (fst (question [1; 2; 3])))) 100 false POk 0) = Ok (asked, r) /\
  h_bodylen asked <= 1384 /\ h_frag asked = 0 /\ has_room asked r /\ step small (question [1; 2; 3]) st = Ok (st', e) /\ sends e = [(1, 50001, b)] /\ answers asked b.
Proof.
  destruct (checked_ok opened (fun st _ => stepped (question [1; 2; 3]) st (fun st1 e1 => alone e1 1 50001 && forallb (fun x => answer_check asked (snd x)) (sends e1)))) as (st & e & RC & R & K);
    [vm_compute; reflexivity|intros x [<-|[]]; reflexivity|].
  apply stepped_ok in K; [|reflexivity]. destruct K as (st1 & e1 & V1 & E1 & K). apply andb_prop in K. destruct K as [K1 K2]. apply alone_ok in K1. destruct K1 as (b & K1).
  exists st, st1, e1. eexists. exists b. split; [exact RC|]. split; [exact V1|]. split; [reflexivity|]. split; [vm_compute; reflexivity|]. split; [vm_compute; discriminate|]. split; [reflexivity|].
  split; [right; exists (mkNdr 65535 0 0 0 0); eexists; split; [vm_compute; reflexivity|]; cbn; lia|]. split; [exact E1|]. split; [exact K1|].
  rewrite K1 in K2. cbn [forallb snd] in K2. rewrite andb_true_r in K2. apply answer_check_ok. exact K2.
Qed.

(** Finding: the REJECT of a message that is too long goes to the address of the
    previous message with the same activity UUID. *)
Definition oversize : input * hres :=
  (IDatagram 3 50003 (frame_with (header 0 0 0 0 2 2 1385 uuid_io_device (client 1)) []) 1465 [0; 0; 0; 0; 0; 0; 0; 0], plain).
Theorem C96_reject_refuted : exists l st ip port frame len old o st' e h r b, reached small l st /\ input_ok (IDatagram ip port frame len old, o) /\
  get_dce_rpc_header old old old (mkRd (Some frame) len false POk 0) = Ok (h, r) /\ h_frag h = 0 /\
  step small (IDatagram ip port frame len old, o) st = Ok (st', e) /\ sends e = [(1, 50001, b)] /\ (ip, port) = (3, 50003).
Proof.
  destruct (checked_ok opened (fun st _ => stepped oversize st (fun st1 e1 => alone e1 1 50001))) as (st & e & RC & R & K);
    [vm_compute; reflexivity|intros x [<-|[]]; reflexivity|].
  apply stepped_ok in K; [|reflexivity]. destruct K as (st1 & e1 & V1 & E1 & K). apply alone_ok in K. destruct K as (b & K).
  exists opened, st, 3, 50003, (frame_with (header 0 0 0 0 2 2 1385 uuid_io_device (client 1)) []), 1465, [0; 0; 0; 0; 0; 0; 0; 0], plain, st1, e1.
  exists (header 0 0 0 0 2 2 1385 uuid_io_device (client 1)). eexists. exists b.
  split; [exact RC|]. split; [exact V1|]. split; [vm_compute; reflexivity|]. split; [reflexivity|]. split; [exact E1|]. split; [exact K|reflexivity].
Qed.
Print Assumptions C96_reject_refuted.

(** Finding: the maximum length that the controller allows is added to the position in
    32 bits; with 2^32 - 1 the sum is 99, so that of a response with 23 bytes 19 are
    sent; with 2^32 - 45 it is 55: not even the header fits, and what is sent is no answer. *)
Definition greedy (x : Z) : input * hres :=
  (send_to 1 50001 0 0 0 0 2 2 uuid_io_device ([255; 255; 255; x] ++ repeat 0 16), answer_with (repeat 7 23)).
Theorem C96_limit_refuted : exists l st, reached small l st /\
  (input_ok (greedy 255) /\ exists st' e b hb, step small (greedy 255) st = Ok (st', e) /\ sends e = [(1, 50001, b)] /\ decode b = Some (hb, repeat 7 19)) /\
  (input_ok (greedy 211) /\ exists st' e b, step small (greedy 211) st = Ok (st', e) /\ sends e = [(1, 50001, b)] /\ ~ answers asked b).
Proof.
  destruct (checked_ok opened (fun st _ => stepped (greedy 255) st (fun st1 e1 => alone e1 1 50001 &&
      forallb (fun x => match decode (snd x) with Some (hb, body) => same_bytes body (repeat 7 19) | None => false end) (sends e1)) &&
    stepped (greedy 211) st (fun st1 e1 => alone e1 1 50001 && forallb (fun x => negb (answer_check asked (snd x))) (sends e1)))) as (st & e & RC & R & K);
    [vm_compute; reflexivity|intros x [<-|[]]; reflexivity|].
  apply andb_prop in K. destruct K as [K1 K2]. exists opened, st. split; [exact RC|]. split.
  - apply stepped_ok in K1; [|reflexivity]. destruct K1 as (st1 & e1 & V1 & E1 & K). apply andb_prop in K. destruct K as [K A]. apply alone_ok in K. destruct K as (b & K).
    split; [exact V1|]. rewrite K in A. cbn [forallb snd] in A. rewrite andb_true_r in A. destruct (decode b) as [[hb body]|] eqn:D; [|discriminate A].
    exists st1, e1, b, hb. split; [exact E1|]. split; [exact K|]. rewrite <- (same_bytes_eq _ _ A). exact D.
  - apply stepped_ok in K2; [|reflexivity]. destruct K2 as (st1 & e1 & V1 & E1 & K). apply andb_prop in K. destruct K as [K A]. apply alone_ok in K. destruct K as (b & K).
    split; [exact V1|]. rewrite K in A. cbn [forallb snd] in A. rewrite andb_true_r in A. apply negb_true_iff in A.
    exists st1, e1, b. split; [exact E1|]. split; [exact K|]. intros H. apply answer_check_ok in H. congruence.
Qed.
Print Assumptions C96_limit_refuted.
