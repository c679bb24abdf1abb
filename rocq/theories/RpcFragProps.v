(** C90: fragmented requests are put together correctly. *)
From Coq Require Import List ZArith Arith Bool Lia.
From Verif Require Import Base CpmModel CpmProps PpmModel PpmProps BlockModel BlockReadLemmas BlockReadProps BlockWriteProps RpcModel RpcLemmas RpcInv RpcStep RpcProps RpcFrame RpcIdent RpcAnswer RpcReply RpcReplyProps RpcDseqProps RpcHold.
Import ListNotations.
Local Open Scope Z_scope.

(** * Specification *)

(** [a] is what remains of [l] if some elements are left out. *)
Inductive chosen {A} : list A -> list A -> Prop :=
| chosen_nil : chosen [] []
| chosen_skip : forall x a l, chosen a l -> chosen a (x :: l)
| chosen_take : forall x a l, chosen a l -> chosen (x :: a) (x :: l).

(** The input is a datagram of client [u] marked as fragment [n] of a message.  [b]: its
    content, of the length given in the header. *)
Definition fragment_of (x : input) (u : uuid) (n : Z) (b : list Z) : Prop :=
  match x with
  | IDatagram ip port frame len old =>
    80 <= len /\ exists h r rest, get_dce_rpc_header old old old (mkRd (Some frame) len false POk 0) = Ok (h, r) /\
      h_activity h = u /\ h_frag h <> 0 /\ h_fragnmb h = n /\ Z.of_nat (length b) = h_bodylen h /\ skipn 80 (firstn (Z.to_nat len) frame) = b ++ rest
  | _ => False
  end.
(** Fragments n, n+1, ... *)
Fixpoint numbered (u : uuid) (n : Z) (ds : list input) (bs : list (list Z)) : Prop :=
  match ds, bs with
  | [], [] => True
  | d :: ds', b :: bs' => fragment_of d u n b /\ numbered u (n + 1) ds' bs'
  | _, _ => False
  end.

(** The datagram is as long as its header says. *)
Definition honest (x : input) : Prop :=
  match x with
  | IDatagram ip port frame len old => forall h r, get_dce_rpc_header old old old (mkRd (Some frame) len false POk 0) = Ok (h, r) -> 80 + h_bodylen h <= len
  | _ => True
  end.

(** A handler is called with the data [mem] (the first [r_len r] bytes of its memory). *)
Definition called (e : list ev) (k : nat) (err : bool) (r : rd) : Prop :=
  (exists op, In (Execute k op r err) e) \/ In (Lookup k r err) e.

(** * Position behind a complete header *)
Definition exactly {A} (n : Z) (m : reader A) : Prop := forall r a r', rok r -> is_ok (r_res r) = true -> r_pos r + n <= r_len r -> r_buf r <> None -> m r = Ok (a, r') ->
  rok r' /\ is_ok (r_res r') = true /\ r_pos r' = r_pos r + n /\ r_len r' = r_len r /\ r_buf r' = r_buf r.

Lemma exactly_bind : forall A B (m : reader A) (f : A -> reader B) n1 n2, 0 <= n1 -> 0 <= n2 -> exactly n1 m -> (forall a, exactly n2 (f a)) -> exactly (n1 + n2) (rbind m f).
Proof.
  intros A B m f n1 n2 N1 N2 H1 H2 r b r' R O P BB E. unfold rbind in E. destruct (m r) as [[a r1]| |] eqn:E1; try discriminate. cbn [obind] in E.
  destruct (H1 r a r1 R O ltac:(lia) BB E1) as (R1 & O1 & P1 & L1 & B1).
  assert (Q : r_pos r1 + n2 <= r_len r1) by lia. assert (Q2 : r_buf r1 <> None) by congruence.
  destruct (H2 a r1 b r' R1 O1 Q Q2 E) as (R2 & O2 & P2 & L2 & B2). split; [exact R2|]. split; [exact O2|]. split; [lia|]. split; congruence.
Qed.
Lemma exactly_ret : forall A (a : A), exactly 0 (rret a).
Proof. intros A a r x r' R O P B E. injection E as <- <-. split; [exact R|]. split; [exact O|]. split; [lia|]. auto. Qed.
Lemma exactly_byte : exactly 1 get_byte.
Proof.
  intros r a r' R O P B E. destruct (adv_byte r a r' R E) as [R1 _]. unfold get_byte in E. rewrite O in E. cbn [negb] in E.
  destruct (Z.leb_spec (r_len r) (r_pos r)); [lia|]. destruct (r_buf r) as [l|] eqn:RB; [|congruence].
  destruct (byte_at l (r_pos r)); try discriminate. cbn [obind] in E. injection E as <- <-. cbn [r_res r_pos r_len r_buf] in *.
  split; [exact R1|]. split; [exact O|]. split; [|auto]. destruct R as (R & R2 & _). apply u16_id. lia.
Qed.
Lemma exactly_u16 : exactly 2 get_u16.
Proof.
  intros r a r' R O P B E. unfold get_u16 in E. rewrite O in E. cbn [negb] in E.
  refine (exactly_bind _ _ _ _ 1 1 _ _ exactly_byte _ r a r' R O P B E); [lia|lia|]. intros x. apply (exactly_bind _ _ _ _ 1 0); [lia|lia|apply exactly_byte|]. intros y. apply exactly_ret.
Qed.
Lemma exactly_u32 : exactly 4 get_u32.
Proof.
  intros r a r' R O P B E. unfold get_u32 in E.
  refine (exactly_bind _ _ _ _ 1 3 _ _ exactly_byte _ r a r' R O P B E); [lia|lia|]. intros x. apply (exactly_bind _ _ _ _ 1 2); [lia|lia|apply exactly_byte|]. intros y.
  apply (exactly_bind _ _ _ _ 1 1); [lia|lia|apply exactly_byte|]. intros z. apply (exactly_bind _ _ _ _ 1 0); [lia|lia|apply exactly_byte|]. intros w. apply exactly_ret.
Qed.
Lemma exactly_mem_into : forall old, length old = 8%nat -> exactly 8 (get_mem_into 8 old 8).
Proof.
  intros old L r a r' R O P B E. destruct (adv_mem_into old L r a r' R E) as [R1 _].
  unfold get_mem_into, get_mem in E. rewrite O in E. cbn [negb] in E. destruct (Z.ltb_spec (r_len r) (r_pos r + 8)); [lia|]. destruct (r_buf r) as [l|] eqn:RB; [|congruence].
  destruct (slice l (r_pos r) 8); try discriminate. cbn [obind Z.ltb Z.compare Pos.compare Pos.compare_cont] in E. injection E as <- <-. cbn [r_res r_pos r_len r_buf] in *.
  split; [exact R1|]. split; [exact O|]. split; [|auto]. destruct R as (R & R2 & _). apply u16_id. lia.
Qed.
Lemma exactly_uuid : forall old, length old = 8%nat -> exactly 16 (get_uuid old).
Proof.
  intros old L. unfold get_uuid. apply (exactly_bind _ _ _ _ 4 12); [lia|lia|apply exactly_u32|]. intros x. apply (exactly_bind _ _ _ _ 2 10); [lia|lia|apply exactly_u16|]. intros y.
  apply (exactly_bind _ _ _ _ 2 8); [lia|lia|apply exactly_u16|]. intros z. apply (exactly_bind _ _ _ _ 8 0); [lia|lia|apply (exactly_mem_into old L)|]. intros w. apply exactly_ret.
Qed.
Lemma exactly_endian : forall b, exactly 0 (set_endian b).
Proof. intros b r a r' R O P B E. injection E as <- <-. cbn. split; [exact R|]. split; [exact O|]. split; [lia|]. auto. Qed.
Lemma exactly_header : forall a b c, length a = 8%nat -> length b = 8%nat -> length c = 8%nat -> exactly 80 (get_dce_rpc_header a b c).
Proof.
  intros a b c La Lb Lc. unfold get_dce_rpc_header.
  apply (exactly_bind _ _ _ _ 1 79); [lia|lia|apply exactly_byte|]; intros. apply (exactly_bind _ _ _ _ 1 78); [lia|lia|apply exactly_byte|]; intros.
  apply (exactly_bind _ _ _ _ 1 77); [lia|lia|apply exactly_byte|]; intros. apply (exactly_bind _ _ _ _ 1 76); [lia|lia|apply exactly_byte|]; intros.
  apply (exactly_bind _ _ _ _ 1 75); [lia|lia|apply exactly_byte|]; intros. cbn zeta.
  match goal with |- exactly 75 (rbind (set_endian ?e) _) => apply (exactly_bind _ _ _ _ 0 75); [lia|lia|apply (exactly_endian e)|]; intros end.
  apply (exactly_bind _ _ _ _ 1 74); [lia|lia|apply exactly_byte|]; intros. apply (exactly_bind _ _ _ _ 1 73); [lia|lia|apply exactly_byte|]; intros.
  apply (exactly_bind _ _ _ _ 1 72); [lia|lia|apply exactly_byte|]; intros.
  apply (exactly_bind _ _ _ _ 16 56); [lia|lia|apply (exactly_uuid a La)|]; intros. apply (exactly_bind _ _ _ _ 16 40); [lia|lia|apply (exactly_uuid b Lb)|]; intros.
  apply (exactly_bind _ _ _ _ 16 24); [lia|lia|apply (exactly_uuid c Lc)|]; intros.
  do 3 (first [apply (exactly_bind _ _ _ _ 4 20)|apply (exactly_bind _ _ _ _ 4 16)|apply (exactly_bind _ _ _ _ 4 12)]; [lia|lia|apply exactly_u32|]; intros).
  do 5 (first [apply (exactly_bind _ _ _ _ 2 10)|apply (exactly_bind _ _ _ _ 2 8)|apply (exactly_bind _ _ _ _ 2 6)|apply (exactly_bind _ _ _ _ 2 4)|apply (exactly_bind _ _ _ _ 2 2)]; [lia|lia|apply exactly_u16|]; intros).
  apply (exactly_bind _ _ _ _ 1 1); [lia|lia|apply exactly_byte|]; intros. apply (exactly_bind _ _ _ _ 1 0); [lia|lia|apply exactly_byte|]; intros. apply exactly_ret.
Qed.

(** * Events that do not run a handler *)
Definition silent (e : list ev) : Prop := forall x, In x e -> match x with Execute _ _ _ _ | Lookup _ _ _ => False | _ => True end.
Lemma silent_nil : silent [].
Proof. intros x []. Qed.
Lemma silent_app : forall a b, silent a -> silent b -> silent (a ++ b).
Proof. intros a b A B x I. apply in_app_or in I. destruct I as [I|I]; [exact (A x I)|exact (B x I)]. Qed.
Lemma silent_cons : forall x e, match x with Execute _ _ _ _ | Lookup _ _ _ => False | _ => True end -> silent e -> silent (x :: e).
Proof. intros x e X E y [<-|I]; [exact X|exact (E y I)]. Qed.
Lemma release_silent : forall c k st, silent (snd (release c k st)).
Proof. intros c k st. unfold release. destruct (s_used _); [|apply silent_nil]. cbn [snd]. destruct (_ && _); [apply silent_cons; [exact I|]|]; apply silent_nil. Qed.
Lemma release_by_ar_silent : forall c i ks st, silent (snd (release_by_ar c i ks st)).
Proof.
  intros c i ks. induction ks as [|k t IH]; intros st; cbn [release_by_ar]; [apply silent_nil|].
  destruct (_ && _); [|apply IH]. pose proof (release_silent c k st) as A. destruct (release c k st) as [st1 e1].
  specialize (IH st1). destruct (release_by_ar c i t st1) as [st2 e2]. cbn [snd] in *. apply silent_app; assumption.
Qed.
Lemma abort_silent : forall c i st, silent (snd (abort c i st)).
Proof.
  intros c i st. unfold abort. destruct (ar_at st i) as [k|]; [|apply silent_nil].
  assert (A : silent (snd (if s_release (sess_at c st k) then (st, []) else release c k st))).
  { destruct (s_release (sess_at c st k)); [apply silent_nil|apply release_silent]. }
  destruct (if s_release (sess_at c st k) then (st, []) else release c k st) as [st1 e1].
  pose proof (release_by_ar_silent c i (seq 0 (c_sessions c)) st1) as B. destruct (release_by_ar c i (seq 0 (c_sessions c)) st1) as [st2 e2]. cbn [snd] in *.
  apply silent_cons; [exact I|]. apply silent_app; assumption.
Qed.
Lemma buffer_silent : forall o k s b, silent (snd (send_buffer o k s b)).
Proof. intros o k s b. unfold send_buffer. destruct b; [apply silent_nil|]. destruct (_ || _); [apply silent_nil|]. apply silent_cons; [exact I|apply silent_nil]. Qed.
Lemma once_silent : forall o k s ok e, send_once o k s = Ok (ok, e) -> silent e.
Proof.
  intros o k s ok e E. unfold send_once in E. destruct (slice _ _ _) as [b| |]; try discriminate. cbn [obind] in E. injection E as E.
  pose proof (buffer_silent o k s b) as H. rewrite E in H. exact H.
Qed.
Lemma send_silent : forall c o k st st' e, send_with_timeout c o k st = Ok (st', e) -> silent e.
Proof.
  intros c o k st st' e E. unfold send_with_timeout in E. destruct (s_socket (sess_at c st k) <? 0); [apply ok_inv in E; destruct E as [_ <-]; apply silent_nil|].
  destruct (0 <? s_counter (sess_at c st k)).
  - cbn zeta in E. destruct (send_once o k _) as [[ok e0]| |] eqn:S1; try discriminate. cbn [obind] in E. apply ok_inv in E. destruct E as [_ <-]. eapply once_silent; exact S1.
  - cbn zeta in E. destruct (s_ar (sess_at c st k)) as [i|]; [|discriminate].
    match type of E with context [abort c i ?s] => pose proof (abort_silent c i s) as A; destruct (abort c i s) as [st2 e2] end. cbn [snd] in A.
    destruct (_ && _); apply ok_inv in E; destruct E as [_ <-]; [|exact A]. apply silent_app; [exact A|]. apply silent_cons; [exact I|apply silent_nil].
Qed.

(** Only the handler of the message runs, with these data. *)
Definition only_for (k : nat) (op : Z) (err : bool) (r : rd) (e : list ev) : Prop := forall x, In x e ->
  match x with
  | Execute k' op' r' err' => k' = k /\ op' = op /\ err' = err /\ r_buf r' = r_buf r /\ r_len r' = r_len r
  | Lookup k' r' err' => k' = k /\ err' = err /\ r_buf r' = r_buf r /\ r_len r' = r_len r
  | _ => True
  end.
Lemma silent_only : forall k op err r e, silent e -> only_for k op err r e.
Proof. intros k op err r e S1 x X. specialize (S1 x X). destruct x; try exact I; contradiction. Qed.
Lemma only_app : forall k op err r a b, only_for k op err r a -> only_for k op err r b -> only_for k op err r (a ++ b).
Proof. intros k op err r a b A B x I. apply in_app_or in I. destruct I as [I|I]; [exact (A x I)|exact (B x I)]. Qed.
Lemma only_cons : forall k op err r x e, only_for k op err r [x] -> only_for k op err r e -> only_for k op err r (x :: e).
Proof. intros k op err r x e A B y [<-|I]; [apply (A x); left; reflexivity|exact (B y I)]. Qed.

Lemma rpc_request_only : forall c o k h r st, only_for k (h_opnum h) (s_err (sess_at c st k)) r (snd (fst (rpc_request c o k h r st))).
Proof.
  intros c o k h r st. unfold rpc_request. set (err := s_err (sess_at c st k)). set (op := h_opnum h).
  assert (X : only_for k op err r [Execute k op r err]) by (intros x [<-|[]]; auto 6).
  destruct (op =? op_connect).
  { assert (S1 : silent (snd (do_connect c o k err st))).
    { unfold do_connect. destruct err; [apply silent_nil|]. destruct (o_effect o) as [| |[]|i|i]; try apply silent_nil.
      - destruct (free_ar _ _); [apply silent_cons; [exact I|]|]; apply silent_nil.
      - destruct (ar_at st i); [apply abort_silent|apply silent_nil]. }
    destruct (do_connect c o k err st) as [st1 e]. cbn [fst snd] in *. apply only_cons; [exact X|apply silent_only; exact S1]. }
  destruct (op =? op_release).
  { assert (S1 : silent (snd (do_release c o k err st))).
    { unfold do_release. destruct err; [apply silent_nil|]. destruct (o_effect o); try apply silent_nil. pose proof (abort_silent c i st) as A. destruct (abort c i st). exact A. }
    destruct (do_release c o k err st) as [st1 e]. cbn [fst snd] in *. apply only_cons; [exact X|apply silent_only; exact S1]. }
  destruct (op =? op_read); [exact X|]. destruct (op =? op_write); [exact X|].
  destruct (op =? op_control).
  { destruct (o_parsed o); [|apply silent_only, silent_nil]. destruct (_ =? _); [apply silent_only, silent_cons; [exact I|apply silent_nil]|exact X]. }
  destruct (op =? op_read_implicit); [exact X|apply silent_only, silent_nil].
Qed.
Lemma handle_only : forall c o k h r st, only_for k (h_opnum h) (s_err (sess_at c st k)) r (snd (fst (handle c o k h r st))).
Proof.
  intros c o k h r st. unfold handle. destruct (uuid_eqb _ uuid_io_device); [apply rpc_request_only|].
  destruct (uuid_eqb _ uuid_epmap); [|apply silent_only, silent_nil]. cbn [fst snd]. intros x [<-|[]]. auto.
Qed.
Lemma request_send_silent : forall c o k h m a b be st st' e, request_send c o k h m a b be st = Ok (st', e) -> silent e.
Proof.
  intros c o k h m a b be st st' e E. unfold request_send in E. cbn zeta in E.
  destruct (s_out_len (sess_at c st k) <? max_payload); cbn [obind] in E.
  - destruct (put_len be _ _ _ b) as [b3| |]; try discriminate. cbn [obind] in E.
    destruct (send_once o k _) as [[ok e0]| |] eqn:S1; try discriminate. cbn [obind snd] in E. apply ok_inv in E. destruct E as [_ <-]. eapply once_silent; exact S1.
  - destruct (put_header _ _ m 0) as [[[b0 start] lp]| |]; try discriminate. cbn [obind] in E.
    destruct (put_len be _ _ _ lp) as [b3| |]; try discriminate. cbn [obind] in E. eapply send_silent; exact E.
Qed.
Lemma request_start_err : forall c o k h m be st st1 a b, (k < length (n_sess st))%nat -> request_start c o k h m be st = Ok (st1, a, b) -> s_err (sess_at c st1 k) = s_err (sess_at c st k).
Proof.
  intros c o k h m be st st1 a b L E. unfold request_start in E. destruct (put_header _ _ m 0) as [[[b0 start] lp]| |]; try discriminate. cbn [obind] in E.
  destruct (poke b0 start _) as [b1| |]; try discriminate. cbn [obind] in E. injection E as <- _ _. rewrite sess_at_set_same by exact L. destruct (h_opnum h =? op_release); reflexivity.
Qed.
Lemma answer_request_only : forall c o k h r st st' e, cfg_ok c -> rok r -> (k < length (n_sess st))%nat -> answer_request c o k h r st = Ok (st', e) ->
  only_for k (h_opnum h) (s_err (sess_at c st k)) r e.
Proof.
  intros c o k h r st st' e C R L E. unfold answer_request in E.
  assert (B : forall m r1 be, request_limit c h r = Ok (m, r1, be) -> r_buf r1 = r_buf r /\ r_len r1 = r_len r).
  { intros m r1 be Q. unfold request_limit in Q. destruct (uuid_eqb _ _); [injection Q as _ <- _; auto|].
    destruct (get_ndr_ok r R) as (nd & r2 & Q1 & _ & Q2 & Q3). rewrite Q1 in Q. cbn [obind] in Q. injection Q as _ <- _. auto. }
  destruct (request_limit c h r) as [[[m r1] be]| |]; try discriminate. cbn [obind] in E. destruct (B m r1 be eq_refl) as [B1 B2].
  destruct (request_start c o k h m be st) as [[[st1 start] lpos]| |] eqn:E1; try discriminate. cbn [obind] in E.
  apply request_start_err in E1; [|exact L].
  pose proof (handle_only c o k h (set_be r1 be) st1) as H. destruct (handle c o k h (set_be r1 be) st1) as [[st2 e2] prm]. cbn [fst snd] in H.
  destruct (request_send c o k h m start lpos be st2) as [[st3 e3]| |] eqn:E3; try discriminate. cbn [obind] in E. apply ok_inv in E. destruct E as [_ <-].
  apply request_send_silent in E3. apply only_app; [|apply only_app; [apply silent_only; exact E3|]].
  - rewrite E1 in H. intros x X. specialize (H x X). destruct x; try exact I; cbn [set_be r_buf r_len] in H.
    + destruct H as (H1 & H2 & H3 & H4 & H5). split; [exact H1|]. split; [exact H2|]. split; [exact H3|]. split; congruence.
    + destruct H as (H1 & H3 & H4 & H5). split; [exact H1|]. split; [exact H3|]. split; congruence.
  - apply silent_only. destruct prm; [|apply silent_nil]. destruct (s_ar _); [apply silent_cons; [exact I|]|]; apply silent_nil.
Qed.
Lemma ping_silent : forall o k h s e, answer_ping o k h s = Ok e -> silent e.
Proof.
  intros o k h s e E. unfold answer_ping in E. destruct (put_header _ _ _ _) as [[[b p] q]| |]; try discriminate. cbn [obind] in E.
  destruct (slice _ _ _) as [d| |]; try discriminate. cbn [obind] in E. injection E as <-. apply buffer_silent.
Qed.
Lemma ack_silent : forall o k h s e, answer_ack o k h s = Ok e -> silent e.
Proof.
  intros o k h s e E. unfold answer_ack in E. destruct (put_header _ _ _ _) as [[[b p] q]| |]; try discriminate. cbn [obind] in E.
  destruct (slice _ _ _) as [d| |]; try discriminate. cbn [obind] in E. injection E as <-. apply buffer_silent.
Qed.
Lemma reject_silent : forall o k h s e, answer_reject o k h s = Ok e -> silent e.
Proof.
  intros o k h s e E. unfold answer_reject in E. destruct (put_header _ _ _ _) as [[[b p] q]| |]; try discriminate. cbn [obind] in E.
  destruct (put_u32 _ _ _) as [w| |]; try discriminate. cbn [obind] in E. destruct (w_buf w); [|discriminate].
  destruct (slice _ _ _) as [d| |]; try discriminate. cbn [obind] in E. injection E as <-. apply buffer_silent.
Qed.
Lemma act_only : forall c o k fresh h r st st' e, cfg_ok c -> rok r -> (k < length (n_sess st))%nat -> act c o k fresh h r st = Ok (st', e) ->
  only_for k (h_opnum h) (s_err (sess_at c st k)) r e.
Proof.
  intros c o k fresh h r st st' e C R L E. unfold act in E. cbn zeta in E.
  destruct (h_ptype h =? pt_ping).
  { destruct (answer_ping o k h _) as [e1| |] eqn:E1; try discriminate. cbn [obind] in E. apply ok_inv in E. destruct E as [_ <-]. apply silent_only. eapply ping_silent; exact E1. }
  destruct (h_ptype h =? pt_request).
  { apply answer_request_only in E; [|exact C|exact R|rewrite length_set_sess; exact L]. rewrite sess_at_set_same in E by exact L. exact E. }
  apply silent_only. destruct (h_ptype h =? pt_frag_ack).
  { unfold next_fragment in E. cbn zeta in E. destruct (_ <? s_out_len _); [|apply ok_inv in E; destruct E as [_ <-]; apply silent_nil].
    repeat match type of E with
    | (do x <- ?a; _) = _ => let F := fresh in destruct a as [[[? ?] ?]| |] eqn:F; try discriminate; cbn [obind] in E
    | (do x <- ?a; _) = _ => let F := fresh in destruct a as [?| |] eqn:F; try discriminate; cbn [obind] in E
    end. eapply send_silent; exact E. }
  destruct (h_ptype h =? pt_response).
  { unfold response in E. destruct fresh; [apply ok_inv in E; destruct E as [_ <-]; apply silent_nil|].
    destruct (get_ndr r) as [[nd r1]| |]; try discriminate. cbn [obind] in E. destruct (h_opnum h =? op_control).
    - destruct (s_ar (sess_at c st k)); [|discriminate]. apply ok_inv in E. destruct E as [_ <-]. apply silent_cons; [exact I|apply silent_nil].
    - apply ok_inv in E; destruct E as [_ <-]; apply silent_nil. }
  destruct (_ || _); [|apply ok_inv in E; destruct E as [_ <-]; apply silent_nil].
  unfold cancel in E.
  assert (H : silent (snd match s_ar (sess_at c st k) with Some i => abort c i st | None => (st, []) end)).
  { destruct (s_ar (sess_at c st k)); [apply abort_silent|apply silent_nil]. }
  destruct (match s_ar (sess_at c st k) with Some i => abort c i st | None => (st, []) end) as [st1 e1]. apply ok_inv in E. destruct E as [_ <-]. exact H.
Qed.

(** * What is collected *)
Lemma chosen_none : forall A (l : list A), chosen [] l.
Proof. intros A l. induction l; constructor; assumption. Qed.
Lemma chosen_more : forall A (a l m : list A), chosen a l -> chosen a (l ++ m).
Proof. intros A a l m H. induction H; cbn [app]; [apply chosen_none|constructor; assumption|constructor; assumption]. Qed.
Lemma chosen_snoc : forall A (x : A) a l, chosen a l -> chosen (a ++ [x]) (l ++ [x]).
Proof. intros A x a l H. induction H; cbn [app]; [apply chosen_take, chosen_nil|apply chosen_skip; assumption|apply chosen_take; assumption]. Qed.
Lemma numbered_snoc : forall u x b ds bs n, numbered u n ds bs -> fragment_of x u (n + Z.of_nat (length ds)) b -> numbered u n (ds ++ [x]) (bs ++ [b]).
Proof.
  intros u x b ds. induction ds as [|d ds IH]; intros [|b0 bs] n N F; cbn [numbered app length] in *; try contradiction.
  - rewrite Z.add_0_r in F. auto.
  - destruct N as [N1 N2]. split; [exact N1|]. apply IH; [exact N2|]. replace (n + 1 + Z.of_nat (length ds)) with (n + Z.of_nat (S (length ds))) by lia. exact F.
Qed.

Definition gathered (l : list input) (s : sess) : Prop := s_used s = true -> 0 < s_in_frag s ->
  exists ds bs, chosen ds l /\ numbered (s_uuid s) 0 ds bs /\ Z.of_nat (length ds) = s_in_frag s /\
    Z.of_nat (length (concat bs)) = s_in_len s /\ firstn (Z.to_nat (s_in_len s)) (s_in s) = concat bs.
Lemma gathered_more : forall l m s, gathered l s -> gathered (l ++ m) s.
Proof. intros l m s G U F. destruct (G U F) as (ds & bs & C & R). exists ds, bs. split; [apply chosen_more; exact C|exact R]. Qed.
Lemma gathered_held : forall l s s', held s s' -> gathered l s -> gathered l s'.
Proof. intros l s s' H G U F. destruct (H U) as (U1 & E1 & E2 & E3 & E4). rewrite E4 in F. destruct (G U1 F) as (ds & bs & X). exists ds, bs. rewrite E1, E2, E3, E4. exact X. Qed.

Lemma honest_fragment : forall ip port frame len old h r, frame_ok frame -> 0 < len <= 1500 -> length old = 8%nat ->
  get_dce_rpc_header old old old (mkRd (Some frame) len false POk 0) = Ok (h, r) -> hdr_in h -> 80 + h_bodylen h <= len ->
  r_pos r = 80 /\ (h_frag h <> 0 -> fragment_of (IDatagram ip port frame len old) (h_activity h) (h_fragnmb h) (firstn (Z.to_nat (h_bodylen h)) (skipn 80 frame))).
Proof.
  intros ip port frame len old h r [F1 F2] L O E H B. destruct (hdr_in_bytes h H) as (HB & _).
  assert (R : rok (mkRd (Some frame) len false POk 0)) by (unfold rok; cbn; split; [lia|]; split; [lia|]; split; [lia|exact F2]).
  assert (Q : r_pos (mkRd (Some frame) len false POk 0) + 80 <= r_len (mkRd (Some frame) len false POk 0)) by (cbn; lia).
  destruct (exactly_header old old old O O O _ h r R eq_refl Q ltac:(discriminate) E) as (_ & _ & P & _). cbn [r_pos] in P. split; [lia|].
  intros FR. cbn [fragment_of]. split; [lia|]. exists h, r, (skipn (Z.to_nat (h_bodylen h)) (skipn 80 (firstn (Z.to_nat len) frame))).
  split; [exact E|]. split; [reflexivity|]. split; [exact FR|]. split; [reflexivity|]. split; [rewrite firstn_length, skipn_length; lia|].
  rewrite <- (firstn_skipn (Z.to_nat (h_bodylen h)) (skipn 80 (firstn (Z.to_nat len) frame))) at 1. f_equal.
  rewrite skipn_firstn_comm, firstn_firstn. f_equal. lia.
Qed.

Lemma collect_gather : forall c ip port frame len old h r s s' r' l, cfg_ok c -> hdr_in h -> h_bodylen h <= 1384 -> rok r -> r_pos r = 80 -> frame_ok frame -> sess_ok c s ->
  (h_frag h <> 0 -> fragment_of (IDatagram ip port frame len old) (h_activity h) (h_fragnmb h) (firstn (Z.to_nat (h_bodylen h)) (skipn 80 frame))) ->
  s_used s = true -> gathered l s -> (s_uuid s = h_activity h \/ s_in_frag s = 0) -> collect c ip port h frame r s = Ok (s', r') ->
  gathered (l ++ [IDatagram ip port frame len old]) s' /\
  (h_frag h <> 0 -> h_last h <> 0 -> s_err s' = false -> exists ds bs mem, chosen ds l /\ numbered (h_activity h) 0 (ds ++ [IDatagram ip port frame len old]) bs /\
     r_buf r' = Some mem /\ r_len r' = Z.of_nat (length (concat bs)) /\ firstn (Z.to_nat (r_len r')) mem = concat bs).
Proof.
  intros c ip port frame len old h r s s' r' l C H B R P [F1 F2] S1 FR US G UU E. set (x := IDatagram ip port frame len old) in *. unfold collect in E. destruct (hdr_in_bytes h H) as (HB & HF & _ & _).
  destruct (Z.eqb_spec (h_frag h) 0) as [F0|F0].
  { injection E as <- <-. split; [|intros X; contradiction]. intros _ X. cbn in X. lia. }
  cbn zeta in E. set (s1 := if h_fragnmb h =? 0 then begin_message ip port h s else if Bool.eqb (s_be s) (h_be h) then s else with_err s true) in *.
  assert (S2 : sess_ok c s1).
  { unfold s1. destruct (h_fragnmb h =? 0); [apply begin_ok; assumption|]. destruct (Bool.eqb _ _); [exact S1|apply err_ok; exact S1]. }
  assert (A : (h_fragnmb h = 0 /\ s_in_frag s1 = 0 /\ s_in_len s1 = 0 /\ s_uuid s1 = h_activity h) \/ (h_fragnmb h <> 0 /\ held s s1)).
  { unfold s1. destruct (Z.eqb_spec (h_fragnmb h) 0) as [Q|Q]; [left; auto 6|right]. split; [exact Q|]. destruct (Bool.eqb _ _); intros U; auto 6. }
  assert (U1 : s_used s1 = true).
  { unfold s1. destruct (h_fragnmb h =? 0); [exact US|]. destruct (Bool.eqb _ _); exact US. }
  clearbody s1.
  assert (G1 : gathered (l ++ [x]) s1).
  { destruct A as [(_ & A & _)|[_ A]]; [intros _ X; lia|]. apply gathered_more. eapply gathered_held; [exact A|exact G]. }
  destruct (Z.eqb_spec (s_in_frag s1) (h_fragnmb h)) as [N|N]; cbn [negb] in E.
  2:{ injection E as <- <-. split; [exact G1|]. intros _ _ X. discriminate X. }
  destruct (Z.ltb_spec (c_buf c) (s_in_len s1 + h_bodylen h)).
  { injection E as <- <-. split; [exact G1|]. intros _ _ X. discriminate X. }
  pose proof S2 as ([I1 _] & I2 & I3 & I4 & I5 & I6). unfold cfg_ok in C.
  rewrite slice_ok in E by lia. cbn [obind] in E. rewrite P in E. change (Z.to_nat 80) with 80%nat in E.
  set (d := firstn (Z.to_nat (h_bodylen h)) (skipn 80 frame)) in *.
  assert (LD : Z.of_nat (length d) = h_bodylen h) by (unfold d; rewrite firstn_length, skipn_length; lia).
  clearbody d. rewrite poke_ok in E by lia. cbn [obind] in E. fold (put_at (s_in s1) (Z.to_nat (s_in_len s1)) d) in E.
  cbn [s_in s_in_len s_in_frag with_in] in E. rewrite (u16_id (s_in_len s1 + h_bodylen h)) in E by lia.
  (* what was collected before *)
  assert (K : exists ds bs, chosen ds l /\ numbered (h_activity h) 0 ds bs /\ Z.of_nat (length ds) = s_in_frag s1 /\ Z.of_nat (length (concat bs)) = s_in_len s1 /\
    firstn (Z.to_nat (s_in_len s1)) (s_in s1) = concat bs).
  { destruct A as [(A1 & A2 & A3 & A4)|[A1 A2]].
    - exists [], []. split; [apply chosen_none|]. split; [exact I|]. split; [rewrite A2; reflexivity|]. split; [rewrite A3; reflexivity|]. rewrite A3. reflexivity.
    - assert (P1 : 0 < s_in_frag s1) by lia. pose proof (gathered_held l s s1 A2 G) as G2.
      destruct (G2 U1 P1) as (ds & bs & K1 & K2 & K3). exists ds, bs. split; [exact K1|]. split; [|exact K3].
      destruct (A2 U1) as (_ & A3 & _ & _ & A4). destruct UU as [UU|UU]; [|lia]. rewrite <- UU, <- A3. exact K2. }
  destruct K as (ds & bs & K1 & K2 & K3 & K4 & K5).
  assert (K6 : numbered (h_activity h) 0 (ds ++ [x]) (bs ++ [d])).
  { apply numbered_snoc; [exact K2|]. rewrite K3, Z.add_0_l, N. apply FR. exact F0. }
  assert (K7 : Z.of_nat (length (concat (bs ++ [d]))) = s_in_len s1 + h_bodylen h).
  { rewrite concat_app, app_length. cbn [concat]. rewrite app_nil_r. lia. }
  assert (K8 : firstn (Z.to_nat (s_in_len s1 + h_bodylen h)) (put_at (s_in s1) (Z.to_nat (s_in_len s1)) d) = concat (bs ++ [d])).
  { unfold put_at. rewrite K5, concat_app, app_assoc. cbn [concat]. rewrite app_nil_r, firstn_app. rewrite firstn_all2 by (rewrite app_length; lia).
    replace (Z.to_nat (s_in_len s1 + h_bodylen h) - length (concat bs ++ d))%nat with 0%nat by (rewrite app_length; lia). cbn [firstn]. apply app_nil_r. }
  injection E as <- <-. split.
  - intros _ Q. cbn [s_in s_in_len s_in_frag with_in s_uuid] in *. exists (ds ++ [x]), (bs ++ [d]).
    assert (V : s_uuid s1 = h_activity h).
    { destruct A as [(_ & _ & _ & A4)|[A1 A2]]; [exact A4|]. destruct (A2 U1) as (_ & A3 & _ & _ & A4). destruct UU as [UU|UU]; [congruence|lia]. }
    split; [apply chosen_snoc; exact K1|]. split; [rewrite V; exact K6|]. split.
    + rewrite app_length. cbn [length]. destruct (Z.eq_dec (s_in_frag s1) 65535) as [W|W]; [rewrite W in Q; discriminate Q|]. rewrite u16_id by lia. lia.
    + split; [exact K7|exact K8].
  - intros _ LN _. destruct (Z.eqb_spec (h_last h) 0); [contradiction|]. exists ds, (bs ++ [d]), (put_at (s_in s1) (Z.to_nat (s_in_len s1)) d).
    split; [exact K1|]. split; [exact K6|]. cbn [r_buf r_len]. split; [reflexivity|]. split; [symmetry; exact K7|exact K8].
Qed.

(** * All histories *)
Definition all_gathered (c : cfg) (l : list input) (st : net) : Prop := forall k, gathered l (sess_at c st k).
Lemma all_held : forall c l m st st', helds c st st' -> all_gathered c l st -> all_gathered c (l ++ m) st'.
Proof. intros c l m st st' H G k. apply gathered_more. eapply gathered_held; [apply H|apply G]. Qed.

(** The messages handed over by a step. *)
Definition handed (l : list input) (x : input) (e : list ev) : Prop := forall h k r, has_header x h -> h_frag h <> 0 -> called e k false r ->
  h_last h <> 0 /\ exists ds bs mem, chosen ds l /\ numbered (h_activity h) 0 (ds ++ [x]) bs /\
     r_buf r = Some mem /\ r_len r = Z.of_nat (length (concat bs)) /\ firstn (Z.to_nat (r_len r)) mem = concat bs.

Lemma datagram_gathered : forall c l ip port frame len old o st st' e, cfg_ok c -> net_ok c st -> input_ok (IDatagram ip port frame len old, o) -> honest (IDatagram ip port frame len old) ->
  all_gathered c l st -> datagram c o ip port frame len old st = Ok (st', e) ->
  all_gathered c (l ++ [IDatagram ip port frame len old]) st' /\ handed l (IDatagram ip port frame len old) e.
Proof.
  intros c l ip port frame len old o st st' e C N (_ & F & LL & LO) HO G E. cbn [fst] in *. set (x := IDatagram ip port frame len old) in *. unfold datagram in E.
  destruct (Z.leb_spec len 0) as [L0|L0].
  { apply ok_inv in E. destruct E as [<- <-]. split; [intros k; apply gathered_more, G|]. intros h k r _ _ [[op []]|[]]. }
  destruct (parse_ok frame len old F ltac:(lia) LO) as (h & r & GH & H & R & P & RB & RL). rewrite GH in E. cbn [obind] in E. rewrite packet_steps in E.
  destruct (honest_fragment ip port frame len old h r F ltac:(lia) LO GH H (HO h r GH)) as [P80 FR]. fold x in FR.
  destruct (session_for c o ip port h st) as [[[k fresh] st1]|] eqn:S1.
  2:{ apply ok_inv in E. destruct E as [<- <-]. split; [intros k; apply gathered_more, G|]. intros h0 k r0 _ _ [[op []]|[]]. }
  destruct (session_for_ok _ _ _ _ _ _ _ _ _ C N S1) as (N1 & L1 & A1 & O1 & Y0 & Y1).
  assert (G1 : all_gathered c l st1).
  { intros j. destruct (Nat.eq_dec j k) as [->|J]; [|rewrite (O1 j J); apply G]. destruct fresh; [|destruct (Y0 eq_refl) as (-> & _); apply G].
    destruct (Y1 eq_refl) as (_ & _ & ->). intros _ X. cbn in X. lia. }
  assert (UU : s_used (sess_at c st1 k) = true /\ (s_uuid (sess_at c st1 k) = h_activity h \/ s_in_frag (sess_at c st1 k) = 0)).
  { destruct fresh; [destruct (Y1 eq_refl) as (_ & _ & ->); cbn; auto|]. destruct (Y0 eq_refl) as (Q & Q1 & Q2). rewrite Q. split; [exact Q1|]. left. symmetry. apply uuid_eqb_eq. exact Q2. }
  destruct UU as [US UU].
  pose proof (session_step_others _ _ _ _ _ _ _ _ _ _ _ _ L1 E) as [_ OT].
  apply session_step_inv in E. destruct E as (s1 & r1 & st3 & e3 & E1 & E2 & E3). cbn zeta in E1, E2. change max_body with 1384 in *.
  set (s2 := with_resend s1 false (s_counter s1)) in *. set (st2 := set_sess st1 k s2) in *.
  assert (L2 : (k < length (n_sess st2))%nat) by (unfold st2; rewrite length_set_sess; exact L1).
  assert (K2 : sess_at c st2 k = s2) by (apply sess_at_set_same; exact L1).
  assert (X1 : gathered (l ++ [x]) s1 /\ (h_frag h <> 0 -> h_last h <> 0 -> h_bodylen h <= 1384 -> s_err s1 = false -> exists ds bs mem, chosen ds l /\ numbered (h_activity h) 0 (ds ++ [x]) bs /\
     r_buf r1 = Some mem /\ r_len r1 = Z.of_nat (length (concat bs)) /\ firstn (Z.to_nat (r_len r1)) mem = concat bs) /\ (h_bodylen h <= 1384 -> rok r1)).
  { destruct (Z.ltb_spec 1384 (h_bodylen h)) as [BL|BL].
    - destruct E1 as [-> ->]. split; [apply gathered_more; exact (G1 k)|]. split; intros; lia.
    - assert (SO : sess_ok c (with_err (sess_at c st1 k) false)) by (apply err_ok, N1).
      destruct (collect_ok c ip port h frame r (with_err (sess_at c st1 k) false) C H BL (proj1 F) P R (proj2 F) SO) as (s1' & r1' & E1' & _ & R1 & _). rewrite E1 in E1'. apply ok_inv in E1'. destruct E1' as [<- <-].
      destruct (collect_gather c ip port frame len old h r _ s1 r1 l C H BL R P80 F SO FR US (G1 k) UU E1) as [X Y].
      split; [exact X|]. split; [intros; apply Y; assumption|]. intros _. exact R1. }
  destruct X1 as (X1 & X2 & X3).
  assert (A2 : helds c st2 st3).
  { destruct (1384 <? h_bodylen h); [destruct E2 as [_ ->]; apply helds_set; [exact L2|]; rewrite K2; intros U; cbn in *; auto 7|].
    destruct (_ || _); [eapply act_helds; eassumption|]. destruct (h_nofack h =? 0); destruct E2 as [_ ->]; apply helds_refl. }
  assert (A3 : helds c st2 st').
  { destruct (s_kill (sess_at c st3 k)); destruct E3 as [-> _]; [|exact A2]. eapply helds_trans; [exact A2|apply release_helds]. }
  split.
  - intros j. destruct (Nat.eq_dec j k) as [->|J].
    + eapply gathered_held; [apply A3|]. rewrite K2. exact X1.
    + destruct (OT j J) as [Q|[Q _]]; rewrite Q; [apply gathered_more, G1|]. intros U. discriminate U.
  - intros h0 k0 r0 [_ [r2 GH0]] FN CA. rewrite GH in GH0. apply ok_inv in GH0. destruct GH0 as [<- _].
    assert (CA3 : called e3 k0 false r0).
    { assert (Q : forall y, In y e -> match y with Execute _ _ _ _ | Lookup _ _ _ => In y e3 | _ => True end).
      { intros y Y. destruct (s_kill (sess_at c st3 k)); destruct E3 as [_ ->]; [|destruct y; auto]. apply in_app_or in Y. destruct Y as [Y|Y]; [destruct y; auto|].
        pose proof (release_silent c k st3 y Y) as Z1. destruct y; try exact I; contradiction. }
      destruct CA as [[op CA]|CA]; [left; exists op|right]; exact (Q _ CA). }
    destruct (Z.ltb_spec 1384 (h_bodylen h)) as [BL|BL].
    { destruct E2 as [E2 _]. pose proof (reject_silent _ _ _ _ _ E2) as S2. destruct CA3 as [[op CA3]|CA3]; destruct (S2 _ CA3). }
    destruct (Z.eqb_spec (h_frag h) 0) as [Q|_]; [contradiction|]. cbn [orb] in E2.
    destruct (Z.eqb_spec (h_last h) 0) as [LZ|LZ]; cbn [negb] in E2.
    { assert (S2 : silent e3) by (destruct (h_nofack h =? 0); destruct E2 as [E2 _]; [eapply ack_silent; exact E2|rewrite E2; apply silent_nil]).
      destruct CA3 as [[op CA3]|CA3]; destruct (S2 _ CA3). }
    split; [exact LZ|]. pose proof (act_only c o k fresh h r1 st2 st3 e3 C (X3 BL) L2 E2) as OF. rewrite K2 in OF. cbn [s_err with_resend] in OF. change (s_err s2) with (s_err s1) in OF.
    assert (Q : s_err s1 = false /\ r_buf r0 = r_buf r1 /\ r_len r0 = r_len r1).
    { destruct CA3 as [[op CA3]|CA3]; specialize (OF _ CA3); cbn in OF.
      - destruct OF as (_ & _ & Q1 & Q2 & Q3). split; [congruence|auto].
      - destruct OF as (_ & Q1 & Q2 & Q3). split; [congruence|auto]. }
    destruct Q as (Q1 & Q2 & Q3). rewrite Q2, Q3. apply X2; assumption.
Qed.

Lemma ccontrol_empty : forall c o i sock obj st st' e, ccontrol c o i sock obj st = Ok (st', e) ->
  (st' = st /\ e = []) \/
  exists k s1, first_free (n_sess st) 0 = Some k /\ s_in_frag s1 = 0 /\ send_with_timeout c o k (set_sess st k s1) = Ok (st', e).
Proof.
  intros c o i sock obj st st' e E. unfold ccontrol in E. destruct (ar_at st i) as [j|]; [|apply ok_inv in E; destruct E as [<- <-]; auto].
  unfold allocate in E. destruct (first_free (n_sess st) 0) as [k|] eqn:F; [|apply ok_inv in E; destruct E as [<- <-]; auto]. right.
  destruct (first_free_spec _ _ _ F) as [A _].
  cbn zeta in E. destruct (put_header _ _ (c_buf c) 0) as [[[b0 start] lp0]| |]; try discriminate. cbn [obind] in E.
  destruct (poke b0 start _) as [b1| |]; try discriminate. cbn [obind] in E.
  match type of E with (do x <- ?a; _) = _ => destruct a as [[[b2 send] lp]| |]; try discriminate end. cbn [obind] in E.
  destruct (put_len true _ _ _ lp) as [b3| |]; try discriminate. cbn [obind] in E. rewrite set_sess_twice in E.
  eexists k, _. split; [reflexivity|]. split; [|exact E]. rewrite ?sess_at_set_same by lia; reflexivity.
Qed.

Lemma step_gathered : forall c l x st st' e, cfg_ok c -> net_ok c st -> input_ok x -> honest (fst x) -> all_gathered c l st -> step c x st = Ok (st', e) ->
  all_gathered c (l ++ [fst x]) st' /\ handed l (fst x) e.
Proof.
  intros c l [x o] st st' e C N V H G E. cbn [fst] in *. destruct x as [ip port frame len old|k|k|i|i sock obj]; cbn [step] in E.
  - exact (datagram_gathered c l ip port frame len old o st st' e C N V H G E).
  - split; [|intros h k0 r0 []]. destruct (s_resend (sess_at c st k)) eqn:RS.
    2:{ apply ok_inv in E. destruct E as [<- _]. intros j. apply gathered_more, G. }
    destruct (Nat.lt_ge_cases k (length (n_sess st))) as [L|L]; [apply send_helds in E; [|exact L]; apply (all_held c l _ st); assumption|].
    unfold sess_at in RS. rewrite nth_overflow in RS by exact L. discriminate RS.
  - split; [|intros h k0 r0 []]. destruct (s_epmtimer (sess_at c st k)).
    + pose proof (release_helds c k st) as Q. destruct (release c k st) as [st1 e1]. apply ok_inv in E. destruct E as [<- _]. apply (all_held c l _ st); assumption.
    + apply ok_inv in E. destruct E as [<- _]. intros j. apply gathered_more, G.
  - split; [|intros h k0 r0 []]. pose proof (abort_helds c i st) as Q. destruct (abort c i st) as [st1 e1]. apply ok_inv in E. destruct E as [<- _]. apply (all_held c l _ st); assumption.
  - split; [|intros h k0 r0 []]. apply ccontrol_empty in E. destruct E as [[-> _]|(k & s1 & F & A & E)]; [intros j; apply gathered_more, G|].
    destruct (first_free_spec _ _ _ F) as [L _]. apply send_helds in E; [|rewrite length_set_sess; lia]. apply (all_held c l _ (set_sess st k s1)); [exact E|].
    intros j. rewrite sess_at_set by lia. destruct (Nat.eqb j k); [|apply G]. intros _ Q. lia.
Qed.

(** * C90 *)

(** If a handler is called without error for a message marked as fragmented, this was the
    last fragment; fragments 0, 1, ... of the same client arrived before, in this
    order, and the data for the handler are exactly their contents, whatever else arrived
    in between. *)
Theorem C90_content_partial : forall c l st e x h st' e' k r, cfg_ok c -> Forall input_ok l -> Forall (fun y => honest (fst y)) l -> run c l (rpc_init c) = Ok (st, e) ->
  input_ok x -> honest (fst x) -> step c x st = Ok (st', e') -> has_header (fst x) h -> h_frag h <> 0 -> called e' k false r ->
  h_last h <> 0 /\ exists ds bs mem, chosen ds (map fst l) /\ numbered (h_activity h) 0 (ds ++ [fst x]) bs /\
    r_buf r = Some mem /\ r_len r = Z.of_nat (length (concat bs)) /\ firstn (Z.to_nat (r_len r)) mem = concat bs.
Proof.
  intros c l st e x h st' e' k r C V H R Vx Hx E HH FN CA.
  assert (G : forall l pre s0 e0, net_ok c s0 -> all_gathered c pre s0 -> Forall input_ok l -> Forall (fun y => honest (fst y)) l -> run c l s0 = Ok (st, e0) -> all_gathered c (pre ++ map fst l) st /\ net_ok c st).
  { clear l e V H R. intros l. induction l as [|y l IH]; intros pre s0 e0 N G V H R; cbn [run map] in *.
    - apply ok_inv in R. destruct R as [<- _]. rewrite app_nil_r. auto.
    - destruct (step c y s0) as [[s1 e1]| |] eqn:E1; try discriminate. cbn [obind] in R.
      destruct (run c l s1) as [[s2 e2]| |] eqn:E2; try discriminate. cbn [obind] in R. apply ok_inv in R. destruct R as [<- _].
      inversion V; subst. inversion H; subst. destruct (step_gathered c pre y s0 s1 e1 C N ltac:(assumption) ltac:(assumption) G E1) as [G1 _].
      replace (pre ++ fst y :: map fst l) with ((pre ++ [fst y]) ++ map fst l) by (rewrite <- app_assoc; reflexivity).
      apply (IH _ s1 e2); [eapply step_net_ok; eauto|exact G1|assumption|assumption|exact E2]. }
  destruct (G l [] (rpc_init c) e (init_ok c C)) as [G1 N]; try assumption.
  { intros j U. exfalso. unfold sess_at, rpc_init in U. cbn [n_sess] in U. rewrite nth_repeat in U. discriminate U. }
  destruct (step_gathered c (map fst l) x st st' e' C N Vx Hx G1 E) as [_ Q]. exact (Q h k r HH FN CA).
Qed.
Print Assumptions C90_content_partial.

(** * Delivery *)

(** A fragment of a message: byte order, whether it is the last one. *)
Definition piece (x : input) (u : uuid) (n : Z) (be last : bool) (b : list Z) : Prop :=
  exists h, has_header x h /\ honest x /\ fragment_of x u n b /\ h_be h = be /\ (if last then h_last h <> 0 else h_last h = 0) /\ h_bodylen h <= 1384.

(** What may arrive between two fragments, while fragment [n] is expected: datagrams of
    other clients, fragments that are repeated or out of order (except the first and
    the last one), expiry of timers, aborts, application ready requests. *)
Definition quiet (u : uuid) (n : Z) (x : input) : Prop :=
  forall h, has_header x h -> h_activity h <> u \/ (h_frag h <> 0 /\ h_last h = 0 /\ h_fragnmb h <> 0 /\ h_fragnmb h <> n /\ h_bodylen h <= 1384).

(** Fragments from [n] on arrive in order, with such inputs in between; [bs]: their
    contents, [m]: the next one. *)
Inductive arriving (u : uuid) (be : bool) : Z -> list (input * hres) -> list (list Z) -> Z -> Prop :=
| arr_done : forall m, arriving u be m [] [] m
| arr_other : forall n x l bs m, 0 < n -> quiet u n (fst x) -> arriving u be n l bs m -> arriving u be n (x :: l) bs m
| arr_piece : forall n x b l bs m, piece (fst x) u n be false b -> arriving u be (n + 1) l bs m -> arriving u be n (x :: l) (b :: bs) m.

Definition locates (c : cfg) (st : net) (u : uuid) (k : nat) : Prop :=
  (k < length (n_sess st))%nat /\ s_used (sess_at c st k) = true /\ s_uuid (sess_at c st k) = u /\
  forall j, (j < k)%nat -> s_used (sess_at c st j) = true -> s_uuid (sess_at c st j) <> u.

Lemma locate_found : forall u l k0 k d, (k < length l)%nat -> s_used (nth k l d) = true -> s_uuid (nth k l d) = u ->
  (forall j, (j < k)%nat -> s_used (nth j l d) = true -> s_uuid (nth j l d) <> u) -> locate l k0 u = Some (k0 + k)%nat.
Proof.
  intros u l. induction l as [|s l IH]; intros k0 k d L U Q F; cbn [length] in L; [lia|]. cbn [locate]. destruct k as [|k]; cbn [nth] in *.
  - rewrite U, Q, (proj2 (uuid_eqb_eq u u) eq_refl). cbn. f_equal. lia.
  - assert (X : negb (s_used s) || negb (uuid_eqb u (s_uuid s)) = true).
    { destruct (s_used s) eqn:US; [|reflexivity]. specialize (F 0%nat ltac:(lia) US). cbn [nth] in F. destruct (uuid_eqb u (s_uuid s)) eqn:UE; [|reflexivity].
      apply uuid_eqb_eq in UE. congruence. }
    rewrite X, (IH (S k0) k d); [f_equal; lia|lia|exact U|exact Q|]. intros j J. apply (F (S j)). lia.
Qed.
Lemma locate_first : forall u l k0 k d, locate l k0 u = Some k -> forall j, (j < k - k0)%nat -> s_used (nth j l d) = true -> s_uuid (nth j l d) <> u.
Proof.
  intros u l. induction l as [|s l IH]; intros k0 k d E j J U; cbn [locate] in E; [discriminate|].
  destruct (negb (s_used s) || negb (uuid_eqb u (s_uuid s))) eqn:Q; [|injection E as <-; lia].
  destruct j as [|j]; cbn [nth] in *.
  - rewrite U in Q. cbn in Q. intros W. rewrite W, (proj2 (uuid_eqb_eq u u) eq_refl) in Q. discriminate Q.
  - apply (IH (S k0) k d E); [lia|exact U].
Qed.
Lemma locates_iff : forall c st u k, locate (n_sess st) 0 u = Some k <-> locates c st u k.
Proof.
  intros c st u k. unfold locates, sess_at. split.
  - intros E. destruct (locate_spec _ _ _ _ E) as [A B]. specialize (B (blank c)). rewrite Nat.sub_0_r in B. destruct B as [B1 B2]. apply uuid_eqb_eq in B2.
    split; [lia|]. split; [exact B1|]. split; [congruence|]. intros j J. apply (locate_first u _ 0 k (blank c) E). lia.
  - intros (A & B & D & F). pose proof (locate_found u (n_sess st) 0 k (blank c) A B D F) as X. rewrite Nat.add_0_l in X. exact X.
Qed.

(** Session [k] of client [u] expects fragment [n]; [acc] is collected. *)
Definition expects (c : cfg) (st : net) (u : uuid) (be : bool) (k : nat) (n : Z) (acc : list Z) : Prop :=
  locates c st u k /\ let s := sess_at c st k in
  s_in_frag s = n /\ s_in_len s = Z.of_nat (length acc) /\ firstn (length acc) (s_in s) = acc /\ s_be s = be /\ s_kill s = false /\ s_epmtimer s = false.

(** Which clients sessions belong to after a step. *)
Lemma step_uuid : forall c x st st' e j, cfg_ok c -> net_ok c st -> step c x st = Ok (st', e) -> s_used (sess_at c st' j) = true ->
  (s_used (sess_at c st j) = true /\ s_uuid (sess_at c st' j) = s_uuid (sess_at c st j)) \/ s_uuid (sess_at c st' j) = o_uuid (snd x) \/
  (exists h, has_header (fst x) h /\ s_uuid (sess_at c st' j) = h_activity h).
Proof.
  intros c [x o] st st' e j C N E U. cbn [fst snd]. destruct x as [ip port frame len old|k|k|i|i sock obj]; cbn [step] in E.
  - unfold datagram in E. destruct (Z.leb_spec len 0) as [L0|L0]; [apply ok_inv in E; destruct E as [<- _]; auto|].
    destruct (get_dce_rpc_header old old old (mkRd (Some frame) len false POk 0)) as [[h r]| |] eqn:G; try discriminate. cbn [obind] in E. rewrite packet_steps in E.
    destruct (session_for c o ip port h st) as [[[k fresh] st1]|] eqn:S1; [|apply ok_inv in E; destruct E as [<- _]; auto].
    destruct (session_for_ok _ _ _ _ _ _ _ _ _ C N S1) as (N1 & L1 & _ & O1 & Y0 & Y1).
    apply session_step_ident in E; [|exact L1]. destruct E as [K O]. destruct (Nat.eq_dec j k) as [->|J].
    + destruct (K U) as (K1 & _ & [K3|K3]); [|right; right; exists h; split; [split; [lia|exists r; exact G]|exact K3]].
      destruct fresh; [|destruct (Y0 eq_refl) as (-> & _); auto]. destruct (Y1 eq_refl) as (_ & _ & Q). rewrite Q in K3. right. left. exact K3.
    + left. destruct (O j J U) as (A & B & _). rewrite (O1 j J) in A, B. auto.
  - left. destruct (s_resend (sess_at c st k)) eqn:RS; [|apply ok_inv in E; destruct E as [<- _]; auto].
    destruct (Nat.lt_ge_cases k (length (n_sess st))) as [L|L]; [apply send_idents in E; [|exact L]; destruct (E j U) as (A & B & _); auto|].
    unfold sess_at in RS. rewrite nth_overflow in RS by exact L. discriminate RS.
  - left. destruct (s_epmtimer (sess_at c st k)); [|apply ok_inv in E; destruct E as [<- _]; auto].
    pose proof (release_idents c k st j) as Q. destruct (release c k st) as [st1 e1]. apply ok_inv in E. destruct E as [<- _]. destruct (Q U) as (A & B & _). auto.
  - left. pose proof (abort_idents c i st j) as Q. destruct (abort c i st) as [st1 e1]. apply ok_inv in E. destruct E as [<- _]. destruct (Q U) as (A & B & _). auto.
  - apply ccontrol_shape in E. destruct E as [[-> _]|(k & s1 & F & A1 & A2 & A3 & A4 & A5 & E)]; [auto|].
    destruct (first_free_spec _ _ _ F) as [A _]. apply send_idents in E; [|rewrite length_set_sess; lia]. destruct (E j U) as (B1 & B2 & _).
    rewrite sess_at_set in B1, B2 by lia. destruct (Nat.eqb_spec j k) as [->|J]; [right; left; congruence|left; auto].
Qed.

(** A session of its own client, without an end of connections. *)
Definition no_ended (e : list ev) : Prop := forall i, ~ In (Ended i) e.
Lemma send_keeps : forall c o k st st' e, (k < length (n_sess st))%nat -> send_with_timeout c o k st = Ok (st', e) -> no_ended e ->
  let s := sess_at c st k in let s' := sess_at c st' k in
  s_used s' = s_used s /\ s_uuid s' = s_uuid s /\ s_in s' = s_in s /\ s_in_len s' = s_in_len s /\ s_in_frag s' = s_in_frag s /\ s_be s' = s_be s /\ s_kill s' = s_kill s /\ s_epmtimer s' = s_epmtimer s.
Proof.
  intros c o k st st' e L E NE. cbn zeta. unfold send_with_timeout in E. destruct (s_socket (sess_at c st k) <? 0); [apply ok_inv in E; destruct E as [<- _]; tauto|].
  destruct (0 <? s_counter (sess_at c st k)).
  - cbn zeta in E. destruct (send_once o k _) as [[ok e0]| |]; try discriminate. cbn [obind] in E. apply ok_inv in E. destruct E as [<- _]. rewrite sess_at_set_same by exact L. cbn. tauto.
  - cbn zeta in E. destruct (s_ar (sess_at c st k)) as [i|]; [|discriminate].
    set (st1 := set_sess st k (with_resend (sess_at c st k) false (s_counter (sess_at c st k)))) in *.
    assert (K1 : sess_at c st1 k = with_resend (sess_at c st k) false (s_counter (sess_at c st k))) by (apply sess_at_set_same; exact L).
    pose proof (abort_sessions c i st1) as (LA & _ & SA). specialize (SA k). destruct (abort c i st1) as [st2 e2]. cbn [fst snd] in *.
    assert (LL : (k < length (n_sess st2))%nat) by (rewrite LA; unfold st1; rewrite length_set_sess; exact L).
    assert (K2 : sess_at c st2 k = sess_at c st1 k).
    { destruct SA as [SA|(_ & SA & _)]; [exact SA|]. exfalso. apply (NE i). destruct (_ && _); apply ok_inv in E; destruct E as [_ <-]; [apply in_or_app; left|]; exact SA. }
    destruct (_ && _); apply ok_inv in E; destruct E as [<- _]; [rewrite sess_at_set_same by exact LL|]; rewrite K2, K1; cbn; tauto.
Qed.

Lemma expects_quiet : forall c pre x st st' e u be k n acc, cfg_ok c -> reached c pre st -> input_ok x -> step c x st = Ok (st', e) -> no_ended e -> o_uuid (snd x) <> u ->
  quiet u n (fst x) -> expects c st u be k n acc -> expects c st' u be k n acc.
Proof.
  intros c pre x st st' e u be k n acc C R V E NE NU Q ((L & U & UU & FF) & X). cbn zeta in X. pose proof (reached_ok c pre st C R) as N.
  assert (LE : length (n_sess st') = length (n_sess st)).
  { pose proof (step_net_ok c x st st' e C N V E) as [A _]. destruct N as [B _]. congruence. }
  assert (OTH : forall j, (j < k)%nat -> (forall h, has_header (fst x) h -> h_activity h <> u) -> s_used (sess_at c st' j) = true -> s_uuid (sess_at c st' j) <> u).
  { intros j J HU U' W. destruct (step_uuid c x st st' e j C N E U') as [[A B]|[A|(h & A & B)]]; [apply (FF j J A); congruence|congruence|apply (HU h A); congruence]. }
  (* a fragment of the same client that is not expected *)
  assert (DUP : (exists h, has_header (fst x) h /\ h_activity h = u) -> expects c st' u be k n acc).
  { intros (h & HH & HA). destruct x as [x o]. cbn [fst snd] in *. destruct (Q h HH) as [Q0|(Q1 & Q2 & Q3 & Q4 & Q5)]; [congruence|].
    destruct x as [ip port frame len old| | | |]; try contradiction. destruct HH as [L0 [r G]]. cbn [step] in E. unfold datagram in E. destruct (Z.leb_spec len 0); [lia|]. rewrite G in E. cbn [obind] in E.
    rewrite packet_steps in E. unfold session_for in E.
    assert (LK : locate (n_sess st) 0 (h_activity h) = Some k) by (apply (locates_iff c); rewrite HA; exact (conj L (conj U (conj UU FF)))).
    rewrite LK in E. apply session_step_inv in E. destruct E as (s1 & r1 & st3 & e3 & E1 & E2 & E3). cbn zeta in E1, E2. change max_body with 1384 in *.
    destruct (Z.ltb_spec 1384 (h_bodylen h)); [lia|]. unfold collect in E1. destruct (Z.eqb_spec (h_frag h) 0); [contradiction|]. destruct (Z.eqb_spec (h_fragnmb h) 0); [contradiction|].
    cbn zeta in E1. set (s := with_err (sess_at c st k) false) in *.
    assert (Z1 : exists b, s1 = with_err s b).
    { assert (W : s_in_frag (if Bool.eqb (s_be s) (h_be h) then s else with_err s true) =? h_fragnmb h = false).
      { apply Z.eqb_neq. destruct X as (X1 & _). destruct (Bool.eqb _ _); cbn; congruence. }
      rewrite W in E1. cbn [negb] in E1. apply ok_inv in E1. destruct E1 as [<- _]. exists true. destruct (Bool.eqb _ _); reflexivity. }
    destruct Z1 as [b Z1]. destruct (Z.eqb_spec (h_last h) 0); [|contradiction]. cbn [orb negb] in E2.
    assert (ST : st3 = set_sess st k (with_resend s1 false (s_counter s1))) by (destruct (h_nofack h =? 0); apply E2).
    assert (K3 : sess_at c st3 k = with_resend s1 false (s_counter s1)) by (rewrite ST; apply sess_at_set_same; exact L).
    assert (SK : s_kill (sess_at c st3 k) = false) by (rewrite K3, Z1; unfold s; cbn; tauto). rewrite SK in E3. destruct E3 as [-> _].
    unfold expects, locates. rewrite K3, LE, Z1. unfold s. cbn. split; [|tauto]. split; [exact L|]. split; [exact U|]. split; [exact UU|].
    intros j J U'. rewrite ST, sess_at_set_other in U' by lia. rewrite ST, sess_at_set_other by lia. exact (FF j J U'). }
  destruct (C94_isolation c pre st x st' e C R V E k) as [SAME|[CON|[_ (i & W & _)]]]; [| |destruct (NE i W)].
  - (* unchanged *)
    destruct (fst x) as [ip port frame len old| | | |] eqn:FX.
    2-5: unfold expects, locates; rewrite SAME, LE; (split; [|exact X]); (split; [exact L|]); (split; [exact U|]); (split; [exact UU|]); intros j J; apply OTH; [exact J|intros h []].
    destruct (Z.leb_spec len 0) as [L0|L0].
    { unfold expects, locates; rewrite SAME, LE. split; [|exact X]. split; [exact L|]. split; [exact U|]. split; [exact UU|]. intros j J. apply OTH; [exact J|]. intros h [Z0 _]. lia. }
    destruct (get_dce_rpc_header old old old (mkRd (Some frame) len false POk 0)) as [[h r]| |] eqn:G.
    2-3: exfalso; destruct x as [x o]; cbn [fst] in FX; subst x; cbn [step] in E; unfold datagram in E; destruct (Z.leb_spec len 0); [lia|]; rewrite G in E; discriminate E.
    destruct (uuid_eqb (h_activity h) u) eqn:UE.
    { apply DUP. exists h. split; [split; [exact L0|exists r; exact G]|apply uuid_eqb_eq; exact UE]. }
    unfold expects, locates; rewrite SAME, LE. split; [|exact X]. split; [exact L|]. split; [exact U|]. split; [exact UU|]. intros j J. apply OTH; [exact J|].
    intros h' [_ [r' G']]. rewrite G in G'. apply ok_inv in G'. destruct G' as [<- _]. intros W. rewrite W, (proj2 (uuid_eqb_eq u u) eq_refl) in UE. discriminate UE.
  - (* concerned *)
    destruct x as [x o]. cbn [fst snd] in *. destruct x as [ip port frame len old|k0|k0|i|i sock obj]; cbn [concerned] in CON.
    + destruct CON as (v & (h & r & G & HA) & CON). rewrite U in CON. destruct (Z.leb_spec len 0) as [L0|L0].
      * cbn [step] in E. unfold datagram in E. destruct (Z.leb_spec len 0); [|lia]. apply ok_inv in E. destruct E as [<- _]. exact (conj (conj L (conj U (conj UU FF))) X).
      * apply DUP. exists h. split; [split; [exact L0|exists r; exact G]|congruence].
    + subst k0. cbn [step] in E. destruct (s_resend (sess_at c st k)); [|apply ok_inv in E; destruct E as [<- _]; exact (conj (conj L (conj U (conj UU FF))) X)].
      destruct (send_keeps c o k st st' e L E NE) as (A1 & A2 & A3 & A4 & A5 & A6 & A7 & A8). unfold expects, locates. cbn zeta. rewrite LE, A1, A2, A3, A4, A5, A6, A7, A8.
      split; [|exact X]. split; [exact L|]. split; [exact U|]. split; [exact UU|]. intros j J. apply OTH; [exact J|intros h []].
    + subst k0. cbn [step] in E. destruct X as (X1 & X2 & X3 & X4 & X5 & X6). rewrite X6 in E. apply ok_inv in E. destruct E as [<- _]. unfold expects. cbn zeta. rewrite X6. exact (conj (conj L (conj U (conj UU FF))) (conj X1 (conj X2 (conj X3 (conj X4 (conj X5 eq_refl)))))).
    + contradiction.
    + congruence.
Qed.

(** The header and content of a fragment. *)
Lemma piece_header : forall x o u n be last b, input_ok (x, o) -> piece x u n be last b -> exists ip port frame len old h r, x = IDatagram ip port frame len old /\ 0 < len <= 1500 /\ frame_ok frame /\ length old = 8%nat /\
  get_dce_rpc_header old old old (mkRd (Some frame) len false POk 0) = Ok (h, r) /\ hdr_in h /\ rok r /\ r_pos r = 80 /\ h_activity h = u /\ h_frag h <> 0 /\ h_fragnmb h = n /\ h_bodylen h = Z.of_nat (length b) /\
  h_bodylen h <= 1384 /\ h_be h = be /\ (if last then h_last h <> 0 else h_last h = 0) /\ firstn (Z.to_nat (h_bodylen h)) (skipn 80 frame) = b.
Proof.
  intros x o u n be last b V (h & HH & HO & FR & B & LA & BL). destruct x as [ip port frame len old| | | |]; try contradiction.
  destruct V as (_ & F & LL & LO). cbn [fst] in *. destruct HH as [L0 [r G]]. destruct FR as (L80 & h' & r' & rest & G' & A1 & A2 & A3 & A4 & A5).
  rewrite G in G'. apply ok_inv in G'. destruct G' as [<- <-].
  destruct (parse_ok frame len old F ltac:(lia) LO) as (h2 & r2 & G2 & H & R & _ & _ & _). rewrite G in G2. apply ok_inv in G2. destruct G2 as [<- <-].
  destruct (honest_fragment ip port frame len old h r F ltac:(lia) LO G H (HO h r G)) as [P80 _]. pose proof (HO h r G) as HL.
  exists ip, port, frame, len, old, h, r. split; [reflexivity|]. split; [lia|]. split; [exact F|]. split; [exact LO|]. split; [exact G|]. split; [exact H|]. split; [exact R|]. split; [exact P80|].
  split; [exact A1|]. split; [exact A2|]. split; [exact A3|]. split; [lia|]. split; [exact BL|]. split; [exact B|]. split; [exact LA|].
  assert (Q : firstn (Z.to_nat (h_bodylen h)) (skipn 80 (firstn (Z.to_nat len) frame)) = b).
  { rewrite A5, <- A4, Nat2Z.id, firstn_app, firstn_all, Nat.sub_diag. cbn [firstn]. apply app_nil_r. }
  rewrite <- Q, skipn_firstn_comm, firstn_firstn. f_equal. lia.
Qed.

(** One more fragment is collected. *)
Lemma collect_next : forall c ip port h frame r s n acc b s' r', cfg_ok c -> hdr_in h -> rok r -> r_pos r = 80 -> frame_ok frame -> sess_ok c s ->
  h_frag h <> 0 -> h_fragnmb h = n -> h_bodylen h = Z.of_nat (length b) -> h_bodylen h <= 1384 -> firstn (Z.to_nat (h_bodylen h)) (skipn 80 frame) = b ->
  (n = 0 /\ acc = [] \/ n <> 0 /\ s_be s = h_be h /\ s_in_frag s = n /\ s_in_len s = Z.of_nat (length acc) /\ firstn (length acc) (s_in s) = acc /\ s_kill s = false /\ s_uuid s = h_activity h) ->
  Z.of_nat (length acc) + Z.of_nat (length b) <= c_buf c -> s_err s = false ->
  collect c ip port h frame r s = Ok (s', r') ->
  s_used s' = s_used s /\ s_uuid s' = h_activity h /\ s_in_frag s' = u16 (n + 1) /\ s_in_len s' = Z.of_nat (length (acc ++ b)) /\ firstn (length (acc ++ b)) (s_in s') = acc ++ b /\
  s_be s' = h_be h /\ s_kill s' = false /\ s_err s' = false /\ s_epmtimer s' = s_epmtimer s /\
  (h_last h <> 0 -> exists mem, r_buf r' = Some mem /\ r_len r' = Z.of_nat (length (acc ++ b)) /\ firstn (length (acc ++ b)) mem = acc ++ b) /\ rok r'.
Proof.
  intros c ip port h frame r s n acc b s' r' C H R P F S1 FN NB LB BL CB ACC ROOM ER E.
  destruct (collect_ok c ip port h frame r s C H BL (proj1 F) ltac:(lia) R (proj2 F) S1) as (s1' & r1' & E' & _ & R1 & _). rewrite E in E'. apply ok_inv in E'. destruct E' as [<- <-].
  unfold collect in E. destruct (hdr_in_bytes h H) as (HB & HF & _ & _). destruct (Z.eqb_spec (h_frag h) 0); [contradiction|]. cbn zeta in E.
  set (s1 := if h_fragnmb h =? 0 then begin_message ip port h s else if Bool.eqb (s_be s) (h_be h) then s else with_err s true) in *.
  assert (A : s_used s1 = s_used s /\ s_uuid s1 = h_activity h /\ s_in_frag s1 = n /\ s_in_len s1 = Z.of_nat (length acc) /\ firstn (length acc) (s_in s1) = acc /\ s_be s1 = h_be h /\ s_kill s1 = false /\ s_err s1 = false /\ s_epmtimer s1 = s_epmtimer s /\
    Z.of_nat (length (s_in s1)) = c_buf c).
  { destruct S1 as ([I1 _] & _). unfold s1. destruct ACC as [[N0 A0]|(N0 & A1 & A2 & A3 & A4 & A5 & A6)].
    - rewrite NB, N0, A0. cbn. auto 12.
    - destruct (Z.eqb_spec (h_fragnmb h) 0); [lia|]. rewrite A1, Bool.eqb_reflx. auto 12. }
  clearbody s1. destruct A as (A1 & A2 & A3 & A4 & A5 & A6 & A7 & A8 & A9 & A10). rewrite A3, NB, Z.eqb_refl in E. cbn [negb] in E. rewrite A4 in E.
  destruct (Z.ltb_spec (c_buf c) (Z.of_nat (length acc) + h_bodylen h)); [lia|]. destruct F as [F1 F2]. unfold cfg_ok in C.
  rewrite slice_ok in E by lia. cbn [obind] in E. rewrite P in E. change (Z.to_nat 80) with 80%nat in E. rewrite CB in E.
  rewrite poke_ok in E by lia. cbn [obind] in E. rewrite Nat2Z.id in E. fold (put_at (s_in s1) (length acc) b) in E.
  cbn [s_in s_in_len s_in_frag with_in] in E. rewrite (u16_id (Z.of_nat (length acc) + h_bodylen h)) in E by lia.
  assert (K8 : firstn (length (acc ++ b)) (put_at (s_in s1) (length acc) b) = acc ++ b).
  { unfold put_at. rewrite A5, app_assoc, firstn_app, firstn_all, Nat.sub_diag. cbn [firstn]. apply app_nil_r. }
  assert (K9 : Z.of_nat (length acc) + h_bodylen h = Z.of_nat (length (acc ++ b))) by (rewrite app_length; lia).
  apply ok_inv in E. destruct E as [<- <-]. cbn [s_used s_uuid s_in s_in_len s_in_frag s_be s_kill s_err s_epmtimer with_in] in *.
  split; [exact A1|]. split; [exact A2|]. split; [reflexivity|]. split; [exact K9|]. split; [exact K8|]. split; [exact A6|]. split; [exact A7|]. split; [exact A8|]. split; [exact A9|]. split; [|exact R1].
  intros LN. destruct (Z.eqb_spec (h_last h) 0); [contradiction|]. eexists. cbn [r_buf r_len]. split; [reflexivity|]. split; [exact K9|exact K8].
Qed.

(** A session is found for each fragment. *)
Lemma find_session : forall c o ip port h st u be k n acc, cfg_ok c -> net_ok c st -> h_activity h = u ->
  (n = 0 /\ acc = [] /\ (forall j, s_used (sess_at c st j) = true -> s_uuid (sess_at c st j) = u -> s_epmtimer (sess_at c st j) = false) /\
     (exists j, (j < c_sessions c)%nat /\ (s_used (sess_at c st j) = true -> s_uuid (sess_at c st j) = u))) \/
  (0 < n /\ expects c st u be k n acc) ->
  exists k' fresh st1, session_for c o ip port h st = Some (k', fresh, st1) /\ net_ok c st1 /\ (k' < length (n_sess st1))%nat /\ length (n_sess st1) = length (n_sess st) /\
    s_used (sess_at c st1 k') = true /\ s_epmtimer (sess_at c st1 k') = false /\ (forall j, (j < k')%nat -> s_used (sess_at c st1 j) = true -> s_uuid (sess_at c st1 j) <> u) /\
    (0 < n -> k' = k /\ st1 = st).
Proof.
  intros c o ip port h st u be k n acc C N HA D.
  assert (X : exists k' fresh st1, session_for c o ip port h st = Some (k', fresh, st1)).
  { unfold session_for. rewrite HA. destruct (locate (n_sess st) 0 u) as [k0|] eqn:LO; [eauto|].
    unfold allocate. destruct (first_free (n_sess st) 0) as [k0|] eqn:FF; [eauto|]. exfalso. destruct D as [(_ & _ & _ & j & J & D)|(_ & (D & _))].
    - assert (JL : (j < length (n_sess st))%nat) by (destruct N as [-> _]; exact J).
      pose proof (first_free_none _ _ FF (sess_at c st j) (nth_In _ _ JL)) as U. specialize (D U).
      pose proof (locate_none _ _ _ LO (sess_at c st j) (nth_In _ _ JL) U) as W. rewrite D, (proj2 (uuid_eqb_eq u u) eq_refl) in W. discriminate W.
    - apply (proj2 (locates_iff c st u k)) in D. congruence. }
  destruct X as (k' & fresh & st1 & SF). exists k', fresh, st1. split; [exact SF|].
  destruct (session_for_ok _ _ _ _ _ _ _ _ _ C N SF) as (N1 & L1 & _ & O1 & Y0 & Y1). split; [exact N1|]. split; [exact L1|]. split; [destruct N as [-> _], N1 as [-> _]; reflexivity|].
  destruct fresh.
  - destruct (Y1 eq_refl) as (Z1 & Z2 & Z3). rewrite Z3. cbn [s_used s_epmtimer with_socket with_peer new_session with_dseq with_id with_used]. split; [reflexivity|]. split; [reflexivity|]. split.
    + intros j J U W. rewrite (O1 j) in U, W by lia. specialize (Z2 _ (used_in c st j U) U). rewrite HA, W, (proj2 (uuid_eqb_eq u u) eq_refl) in Z2. discriminate Z2.
    + intros NP. exfalso. destruct D as [(D & _)|(_ & ((LL & D2 & D3 & _) & _))]; [lia|]. specialize (Z2 _ (used_in c st k D2) D2). rewrite HA, D3, (proj2 (uuid_eqb_eq u u) eq_refl) in Z2. discriminate Z2.
  - destruct (Y0 eq_refl) as (Q & Q1 & Q2). subst st1. apply uuid_eqb_eq in Q2. rewrite HA in Q2.
    assert (LO : locate (n_sess st) 0 u = Some k').
    { unfold session_for in SF. rewrite HA in SF. destruct (locate (n_sess st) 0 u); [congruence|]. destruct (allocate c (o_uuid o) st) as [[k1 s1]|]; discriminate SF. }
    pose proof (proj1 (locates_iff c st u k') LO) as (_ & _ & _ & FF). split; [exact Q1|]. split; [|split; [exact FF|]].
    + destruct D as [(_ & _ & D & _)|(_ & (D & DX))]; [apply D; congruence|]. apply (proj2 (locates_iff c st u k)) in D. assert (k' = k) by congruence. subst k'. apply DX.
    + intros NP. split; [|reflexivity]. destruct D as [(D & _)|(_ & (D & _))]; [lia|]. apply (proj2 (locates_iff c st u k)) in D. congruence.
Qed.

Lemma piece_step : forall c x o st st' e u be last k n acc b, cfg_ok c -> net_ok c st -> input_ok (x, o) -> step c (x, o) st = Ok (st', e) -> o_uuid o <> u -> piece x u n be last b ->
  (n = 0 /\ acc = [] /\ (forall j, s_used (sess_at c st j) = true -> s_uuid (sess_at c st j) = u -> s_epmtimer (sess_at c st j) = false) /\
     (exists j, (j < c_sessions c)%nat /\ (s_used (sess_at c st j) = true -> s_uuid (sess_at c st j) = u))) \/
  (0 < n /\ expects c st u be k n acc) ->
  Z.of_nat (length acc) + Z.of_nat (length b) <= c_buf c -> 0 <= n < 65535 ->
  if last then forall h, has_header x h -> h_ptype h = 0 -> h_interface h = uuid_io_device -> In (h_opnum h) [0; 1; 2; 3; 5] ->
    exists k r mem, In (Execute k (h_opnum h) r false) e /\ r_buf r = Some mem /\ r_len r = Z.of_nat (length (acc ++ b)) /\ firstn (length (acc ++ b)) mem = acc ++ b
  else exists k', expects c st' u be k' (n + 1) (acc ++ b).
Proof.
  intros c x o st st' e u be last k n acc b C N V E NU PI D ROOM NR.
  destruct (piece_header x o u n be last b V PI) as (ip & port & frame & len & old & h & r & -> & L0 & F & LO & G & H & R & P80 & HA & FN & NB & LB & BL & HB & LA & CB).
  cbn [step] in E. unfold datagram in E. destruct (Z.leb_spec len 0); [lia|]. rewrite G in E. cbn [obind] in E. rewrite packet_steps in E.
  destruct (find_session c o ip port h st u be k n acc C N HA D) as (k' & fresh & st1 & SF & N1 & L1 & LN & US & EP & FF & KK). rewrite SF in E.
  pose proof (session_step_others _ _ _ _ _ _ _ _ _ _ _ _ L1 E) as [LS OT].
  apply session_step_inv in E. destruct E as (s1 & r1 & st3 & e3 & E1 & E2 & E3). cbn zeta in E1, E2. change max_body with 1384 in *.
  destruct (Z.ltb_spec 1384 (h_bodylen h)); [lia|].
  assert (SO : sess_ok c (with_err (sess_at c st1 k') false)) by (apply err_ok, N1).
  assert (ACC : n = 0 /\ acc = [] \/ n <> 0 /\ s_be (with_err (sess_at c st1 k') false) = h_be h /\ s_in_frag (with_err (sess_at c st1 k') false) = n /\ s_in_len (with_err (sess_at c st1 k') false) = Z.of_nat (length acc) /\
    firstn (length acc) (s_in (with_err (sess_at c st1 k') false)) = acc /\ s_kill (with_err (sess_at c st1 k') false) = false /\ s_uuid (with_err (sess_at c st1 k') false) = h_activity h).
  { destruct D as [(D1 & D2 & _)|(D1 & ((D2 & D3 & D4 & D5) & DX))]; [left; auto|right]. destruct (KK D1) as [-> ->]. cbn zeta in DX. destruct DX as (X1 & X2 & X3 & X4 & X5 & X6).
    cbn. split; [lia|]. split; [congruence|]. split; [exact X1|]. split; [exact X2|]. split; [exact X3|]. split; [exact X5|congruence]. }
  destruct (collect_next c ip port h frame r (with_err (sess_at c st1 k') false) n acc b s1 r1 C H R P80 F SO FN NB LB BL CB ACC ROOM eq_refl E1) as (B1 & B2 & B3 & B4 & B5 & B6 & B7 & B8 & B9 & B10 & B11).
  cbn [s_used s_epmtimer with_err] in B1, B9. rewrite US in B1. rewrite EP in B9.
  set (s2 := with_resend s1 false (s_counter s1)) in *. set (st2 := set_sess st1 k' s2) in *.
  assert (L2 : (k' < length (n_sess st2))%nat) by (unfold st2; rewrite length_set_sess; exact L1).
  assert (K2 : sess_at c st2 k' = s2) by (apply sess_at_set_same; exact L1).
  destruct (Z.eqb_spec (h_frag h) 0); [contradiction|]. cbn [orb] in E2. destruct last.
  - intros h0 [_ [r0 G0]] PT HI OP. rewrite G in G0. apply ok_inv in G0. destruct G0 as [<- _]. destruct (Z.eqb_spec (h_last h) 0); [contradiction|]. cbn [negb] in E2.
    destruct (B10 LA) as (mem & M1 & M2 & M3). unfold act in E2. rewrite PT in E2. cbn [Z.eqb pt_ping pt_request] in E2. rewrite K2 in E2. cbn zeta in E2.
    unfold answer_request in E2.
    assert (QL : forall m r2 be2, request_limit c h r1 = Ok (m, r2, be2) -> r_buf r2 = r_buf r1 /\ r_len r2 = r_len r1).
    { intros m r2 be2 Q. unfold request_limit in Q. destruct (uuid_eqb _ _); [injection Q as _ <- _; auto|].
      destruct (get_ndr_ok r1 B11) as (nd & r3 & Q1 & _ & Q2 & Q3). rewrite Q1 in Q. cbn [obind] in Q. injection Q as _ <- _. auto. }
    destruct (request_limit c h r1) as [[[m r2] be2]| |]; try discriminate. cbn [obind] in E2. destruct (QL m r2 be2 eq_refl) as [Q1 Q2].
    destruct (request_start c o k' h m be2 _) as [[[st4 start] lpos]| |] eqn:ES; try discriminate. cbn [obind] in E2.
    apply request_start_err in ES; [|rewrite length_set_sess; exact L2]. rewrite sess_at_set_same in ES by exact L2. cbn [s_err with_out] in ES. change (s_err s2) with (s_err s1) in ES. rewrite B8 in ES.
    assert (HX : In (Execute k' (h_opnum h) (set_be r2 be2) false) (snd (fst (handle c o k' h (set_be r2 be2) st4)))).
    { unfold handle. rewrite HI, (proj2 (uuid_eqb_eq uuid_io_device uuid_io_device) eq_refl). unfold rpc_request. rewrite ES.
      cbn [In] in OP. destruct OP as [<-|[<-|[<-|[<-|[<-|[]]]]]]; cbn [Z.eqb Pos.eqb op_connect op_release op_read op_write op_control op_read_implicit].
      - destruct (do_connect c o k' false st4) as [sx ex]. left. reflexivity.
      - destruct (do_release c o k' false st4) as [sx ex]. left. reflexivity.
      - left. reflexivity.
      - left. reflexivity.
      - left. reflexivity. }
    destruct (handle c o k' h (set_be r2 be2) st4) as [[st5 e5] prm]. cbn [fst snd] in HX.
    destruct (request_send c o k' h m start lpos be2 st5) as [[st6 e6]| |]; try discriminate. cbn [obind] in E2. apply ok_inv in E2. destruct E2 as [_ E2].
    exists k', (set_be r2 be2), mem. split.
    + assert (W : In (Execute k' (h_opnum h) (set_be r2 be2) false) e3) by (rewrite <- E2; apply in_or_app; left; exact HX).
      destruct (s_kill _); destruct E3 as [_ ->]; [apply in_or_app; left|]; exact W.
    + cbn [set_be r_buf r_len]. rewrite Q1, Q2. auto.
  - exists k'. destruct (Z.eqb_spec (h_last h) 0); [|contradiction]. cbn [negb] in E2.
    assert (ST : st3 = st2) by (destruct (h_nofack h =? 0); apply E2). subst st3. rewrite K2 in E3. change (s_kill s2) with (s_kill s1) in E3. rewrite B7 in E3. destruct E3 as [-> _].
    unfold expects, locates. cbn zeta. rewrite K2. unfold s2. cbn [s_used s_uuid s_in_frag s_in_len s_in s_be s_kill s_epmtimer with_resend].
    split; [split; [exact L2|split; [exact B1|split; [congruence|]]]|].
    + intros j J U. unfold st2 in *. rewrite sess_at_set_other in U by lia. rewrite sess_at_set_other by lia. exact (FF j J U).
    + split; [rewrite B3; apply u16_id; lia|]. split; [exact B4|]. split; [exact B5|]. split; [congruence|]. split; [exact B7|exact B9].
Qed.

Lemma reached_app : forall c l st l' st' e, reached c l st -> Forall input_ok l' -> run c l' st = Ok (st', e) -> reached c (l ++ l') st'.
Proof.
  intros c l st l' st' e [V [e0 R]] V' R'. split; [apply Forall_app; auto|]. exists (e0 ++ e). clear V V'. revert R. generalize (rpc_init c). revert e0.
  induction l as [|x l IH]; intros e0 s0 R; cbn [run app] in *; [apply ok_inv in R; destruct R as [-> <-]; exact R'|].
  destruct (step c x s0) as [[s1 e1]| |]; try discriminate. cbn [obind] in *. destruct (run c l s1) as [[s2 e2]| |] eqn:E2; try discriminate. cbn [obind] in R. apply ok_inv in R. destruct R as [-> <-].
  rewrite (IH e2 s1 E2). cbn [obind]. rewrite app_assoc. reflexivity.
Qed.

Lemma arriving_run : forall c u be n l bs m, arriving u be n l bs m -> forall pre st st' e k acc, cfg_ok c -> reached c pre st -> Forall input_ok l ->
  Forall (fun x => o_uuid (snd x) <> u) l -> run c l st = Ok (st', e) -> no_ended e ->
  (n = 0 /\ acc = [] /\ (forall j, s_used (sess_at c st j) = true -> s_uuid (sess_at c st j) = u -> s_epmtimer (sess_at c st j) = false) /\
     (exists j, (j < c_sessions c)%nat /\ (s_used (sess_at c st j) = true -> s_uuid (sess_at c st j) = u))) \/
  (0 < n /\ expects c st u be k n acc) -> 0 <= n -> 0 < m < 65535 -> Z.of_nat (length (acc ++ concat bs)) <= c_buf c ->
  exists k', expects c st' u be k' m (acc ++ concat bs).
Proof.
  intros c u be n l bs m A. induction A as [m|n x l bs m NP Q A IH|n x b l bs m PI A IH]; intros pre st st' e k acc C R V NU E NE D N0 M ROOM; cbn [run] in E.
  - apply ok_inv in E. destruct E as [<- _]. cbn [concat]. rewrite app_nil_r. destruct D as [(D & _)|(_ & D)]; [lia|]. exists k. exact D.
  - destruct (step c x st) as [[s1 e1]| |] eqn:E1; try discriminate. cbn [obind] in E. destruct (run c l s1) as [[s2 e2]| |] eqn:E2; try discriminate. cbn [obind] in E. apply ok_inv in E. destruct E as [-> <-].
    inversion V; subst. inversion NU; subst. destruct D as [(D & _)|(_ & D)]; [lia|].
    assert (NE1 : no_ended e1) by (intros i I; apply (NE i), in_or_app; left; exact I). assert (NE2 : no_ended e2) by (intros i I; apply (NE i), in_or_app; right; exact I).
    pose proof (expects_quiet c pre x st s1 e1 u be k n acc C R ltac:(assumption) E1 NE1 ltac:(assumption) Q D) as D1.
    refine (IH (pre ++ [x]) s1 st' e2 k acc C _ ltac:(assumption) ltac:(assumption) E2 NE2 (or_intror (conj NP D1)) N0 M ROOM).
    apply (reached_app c pre st [x] s1 (e1 ++ [])); [exact R|constructor; [assumption|constructor]|]. cbn [run]. rewrite E1. reflexivity.
  - destruct (step c x st) as [[s1 e1]| |] eqn:E1; try discriminate. cbn [obind] in E. destruct (run c l s1) as [[s2 e2]| |] eqn:E2; try discriminate. cbn [obind] in E. apply ok_inv in E. destruct E as [-> <-].
    inversion V; subst. inversion NU; subst. cbn [concat] in *. rewrite app_assoc in *.
    assert (NE2 : no_ended e2) by (intros i I; apply (NE i), in_or_app; right; exact I).
    assert (NM : n + 1 <= m) by (clear -A; induction A; lia).
    destruct x as [x o]. cbn [fst snd] in *. rewrite !app_length in ROOM.
    pose proof (piece_step c x o st s1 e1 u be false k n acc b C (reached_ok c pre st C R) ltac:(assumption) E1 ltac:(assumption) PI D ltac:(lia) ltac:(lia)) as [k' D1].
    assert (NP : 0 < n + 1) by lia.
    refine (IH (pre ++ [(x, o)]) s1 st' e2 k' (acc ++ b) C _ ltac:(assumption) ltac:(assumption) E2 NE2 (or_intror (conj NP D1)) ltac:(lia) M _).
    + apply (reached_app c pre st [(x, o)] s1 (e1 ++ [])); [exact R|constructor; [assumption|constructor]|]. cbn [run]. rewrite E1. reflexivity.
    + rewrite !app_length. lia.
Qed.

(** The fragments of a request arrive in order, those of one client, with other inputs in
    between, and the whole request fits into the buffer of a session: then it is
    executed, without error, with exactly the contents of the fragments. *)
Theorem C90_delivered_partial : forall c pre st u be l bs m x b h st' e, cfg_ok c -> reached c pre st ->
  (forall j, s_used (sess_at c st j) = true -> s_uuid (sess_at c st j) = u -> s_epmtimer (sess_at c st j) = false) ->
  (exists j, (j < c_sessions c)%nat /\ (s_used (sess_at c st j) = true -> s_uuid (sess_at c st j) = u)) ->
  arriving u be 0 l bs m -> piece (fst x) u m be true b -> 0 < m < 65535 -> Z.of_nat (length (concat (bs ++ [b]))) <= c_buf c ->
  has_header (fst x) h -> h_ptype h = 0 -> h_interface h = uuid_io_device -> In (h_opnum h) [0; 1; 2; 3; 5] ->
  Forall input_ok (l ++ [x]) -> Forall (fun y => o_uuid (snd y) <> u) (l ++ [x]) -> run c l st = Ok (st', e) -> no_ended e ->
  forall st'' e'', step c x st' = Ok (st'', e'') ->
  exists k r mem, In (Execute k (h_opnum h) r false) e'' /\ r_buf r = Some mem /\ r_len r = Z.of_nat (length (concat (bs ++ [b]))) /\ firstn (length (concat (bs ++ [b]))) mem = concat (bs ++ [b]).
Proof.
  intros c pre st u be l bs m x b h st' e C R EP FREE A PI M ROOM HH PT HI OP V NU E NE st'' e'' E2.
  apply Forall_app in V. destruct V as [V VX]. apply Forall_app in NU. destruct NU as [NU NX]. inversion VX; subst. inversion NX; subst.
  rewrite concat_app in *. cbn [concat] in *. rewrite app_nil_r in *. rewrite app_length in ROOM.
  destruct (arriving_run c u be 0 l bs m A pre st st' e 0%nat [] C R V NU E NE (or_introl (conj eq_refl (conj eq_refl (conj EP FREE)))) ltac:(lia) M ltac:(cbn [app]; lia)) as [k D]. cbn [app] in D.
  pose proof (reached_app c pre st l st' e R V E) as R2. destruct x as [x o]. cbn [fst snd] in *.
  assert (MP : 0 < m) by lia.
  exact (piece_step c x o st' st'' e'' u be true k m (concat bs) b C (reached_ok c _ st' C R2) ltac:(assumption) E2 ltac:(assumption) PI (or_intror (conj MP D)) ltac:(lia) ltac:(lia) h HH PT HI OP).
Qed.
Print Assumptions C90_delivered_partial.

(** * Concrete cases *)
Definition piece_check (x : input) (u : uuid) (n : Z) (be last : bool) (b : list Z) : bool :=
  match x with
  | IDatagram ip port frame len old =>
    match get_dce_rpc_header old old old (mkRd (Some frame) len false POk 0) with
    | Ok (h, _) => uuid_eqb (h_activity h) u && (negb (h_frag h =? 0) && ((h_fragnmb h =? n) && (Bool.eqb (h_be h) be && (Bool.eqb (negb (h_last h =? 0)) last &&
        ((h_bodylen h =? Z.of_nat (length b)) && ((h_bodylen h <=? 1384) && ((len =? 80 + Z.of_nat (length b)) && same_bytes (skipn 80 (firstn (Z.to_nat len) frame)) b)))))))
    | _ => false
    end
  | _ => false
  end.
Lemma piece_check_ok : forall x u n be last b, piece_check x u n be last b = true -> piece x u n be last b.
Proof.
  intros x u n be last b H. unfold piece_check in H. destruct x as [ip port frame len old| | | |]; try discriminate H.
  destruct (get_dce_rpc_header old old old _) as [[h r]| |] eqn:G; try discriminate H. rewrite !andb_true_iff, negb_true_iff, !Z.eqb_eq, Z.leb_le, Z.eqb_neq, uuid_eqb_eq in H.
  destruct H as (A & B & D & E & F & I & J & K & L). apply Bool.eqb_prop in E, F. apply same_bytes_eq in L. exists h.
  split; [split; [lia|exists r; exact G]|]. split; [intros h' r' G'; rewrite G in G'; apply ok_inv in G'; destruct G' as [<- _]; lia|].
  split; [split; [lia|]; exists h, r, []; rewrite app_nil_r; auto 8|]. split; [exact E|]. split; [|exact J]. destruct last.
  - apply negb_true_iff, Z.eqb_neq in F. exact F.
  - apply negb_false_iff, Z.eqb_eq in F. exact F.
Qed.
Definition head_check (x : input) (f : rpch -> bool) : bool :=
  match x with
  | IDatagram ip port frame len old => match get_dce_rpc_header old old old (mkRd (Some frame) len false POk 0) with Ok (h, _) => (0 <? len) && f h | _ => false end
  | _ => false
  end.
Lemma head_check_ok : forall x f, head_check x f = true -> exists h, has_header x h /\ f h = true /\ forall h', has_header x h' -> h' = h.
Proof.
  intros x f H. unfold head_check in H. destruct x as [ip port frame len old| | | |]; try discriminate H.
  destruct (get_dce_rpc_header old old old _) as [[h r]| |] eqn:G; try discriminate H. apply andb_prop in H. destruct H as [A B]. exists h. split; [split; [apply Z.ltb_lt; exact A|exists r; exact G]|].
  split; [exact B|]. intros h' [_ [r' G']]. rewrite G in G'. apply ok_inv in G'. destruct G' as [-> _]. reflexivity.
Qed.
Definition no_endedb (e : list ev) : bool := forallb (fun x => match x with Ended _ => false | _ => true end) e.
Lemma no_endedb_ok : forall e, no_endedb e = true -> no_ended e.
Proof. intros e H i X. unfold no_endedb in H. rewrite forallb_forall in H. specialize (H _ X). discriminate H. Qed.

(** Client 1, which has a connection, writes with three fragments; the second one
    comes twice, and a ping of another client arrives in between. *)
Definition part (n last : Z) (b : list Z) : input * hres := (send_to 1 50001 0 1 last n 4 3 uuid_io_device b, plain).
Definition first_part : list Z := ndr_bytes ++ [1; 2].
Definition parts : list (input * hres) := [part 0 0 first_part; foreign; part 1 0 [3; 4; 5]; part 1 0 [3; 4; 5]].
Example C90_delivered_example : exists st h st' e st'' e'', let x := part 2 1 [6; 7] in let u := client 1 in
  cfg_ok small /\ reached small opened st /\
  (forall j, s_used (sess_at small st j) = true -> s_uuid (sess_at small st j) = u -> s_epmtimer (sess_at small st j) = false) /\
  (exists j, (j < c_sessions small)%nat /\ (s_used (sess_at small st j) = true -> s_uuid (sess_at small st j) = u)) /\
  arriving u true 0 parts [first_part; [3; 4; 5]] 2 /\ piece (fst x) u 2 true true [6; 7] /\
  has_header (fst x) h /\ h_ptype h = 0 /\ h_interface h = uuid_io_device /\ h_opnum h = 3 /\
  Forall input_ok (parts ++ [x]) /\ Forall (fun y => o_uuid (snd y) <> u) (parts ++ [x]) /\ run small parts st = Ok (st', e) /\ no_ended e /\ step small x st' = Ok (st'', e'').
Proof.
  set (x := part 2 1 [6; 7]).
  destruct (checked_ok opened (fun st _ => forallb (fun s => negb (s_epmtimer s)) (n_sess st) && (negb (s_used (sess_at small st 1)) && (forallb input_check (parts ++ [x]) &&
     match run small parts st with Ok (st', e) => no_endedb e && stepped x st' (fun _ _ => true) | _ => false end)))) as (st & e0 & RC & R & K);
    [vm_compute; reflexivity|intros y [<-|[]]; reflexivity|].
  apply andb_prop in K. destruct K as [K1 K]. apply andb_prop in K. destruct K as [K2 K]. apply andb_prop in K. destruct K as [K3 K].
  destruct (run small parts st) as [[st' e]| |] eqn:RP; [|discriminate K|discriminate K]. apply andb_prop in K. destruct K as [K4 K]. apply stepped_ok in K; [|reflexivity]. destruct K as (st'' & e'' & VX & EX & _).
  destruct (head_check_ok (fst x) (fun h => (h_ptype h =? 0) && (uuid_eqb (h_interface h) uuid_io_device && (h_opnum h =? 3)))) as (h & HH & HC & _); [vm_compute; reflexivity|].
  rewrite !andb_true_iff, !Z.eqb_eq, uuid_eqb_eq in HC. destruct HC as (H1 & H2 & H3).
  exists st, h, st', e, st'', e''. cbn zeta.
  split; [unfold cfg_ok; cbn; lia|]. split; [exact RC|]. split; [intros j U _; rewrite forallb_forall in K1; apply negb_true_iff, K1; apply used_in; exact U|].
  split; [exists 1%nat; split; [cbn; lia|intros U; rewrite U in K2; discriminate K2]|].
  split.
  { apply arr_piece; [apply piece_check_ok; vm_compute; reflexivity|]. apply arr_other; [lia| |].
    { intros h' HH'. destruct (head_check_ok (fst foreign) (fun h => uuid_eqb (h_activity h) (client 2))) as (h2 & _ & Q & UQ); [vm_compute; reflexivity|].
      apply UQ in HH'. subst h'. apply uuid_eqb_eq in Q. left. rewrite Q. discriminate. }
    apply arr_piece; [apply piece_check_ok; vm_compute; reflexivity|]. apply arr_other; [lia| |apply arr_done].
    intros h' HH'. destruct (head_check_ok (fst (part 1 0 [3; 4; 5])) (fun h => negb (h_frag h =? 0) && ((h_last h =? 0) && ((h_fragnmb h =? 1) && (h_bodylen h <=? 1384))))) as (h2 & _ & Q & UQ); [vm_compute; reflexivity|].
    apply UQ in HH'. subst h'. rewrite !andb_true_iff, negb_true_iff, Z.eqb_neq, !Z.eqb_eq, Z.leb_le in Q. right. destruct Q as (Q1 & Q2 & Q3 & Q4). split; [exact Q1|]. split; [exact Q2|]. split; [lia|]. split; [lia|exact Q4]. }
  split; [apply piece_check_ok; vm_compute; reflexivity|]. split; [exact HH|]. split; [exact H1|]. split; [exact H2|]. split; [exact H3|].
  split.
  { apply Forall_forall. intros y Y. apply input_check_ok; [|rewrite forallb_forall in K3; apply K3; exact Y]. cbn in Y. destruct Y as [<-|[<-|[<-|[<-|[<-|[]]]]]]; exact client_ok. }
  split; [repeat constructor; discriminate|]. split; [exact RP|]. split; [apply no_endedb_ok; exact K4|exact EX].
Qed.

(** The hypotheses of the first theorem: this history. *)
Example C90_content_example : exists st e st' e' h k r, let x := part 2 1 [6; 7] in
  run small (opened ++ parts) (rpc_init small) = Ok (st, e) /\ Forall input_ok (opened ++ parts ++ [x]) /\ Forall (fun y => honest (fst y)) (opened ++ parts ++ [x]) /\ step small x st = Ok (st', e') /\
  has_header (fst x) h /\ h_frag h <> 0 /\ called e' k false r /\ r_len r = 27.
Proof.
  set (x := part 2 1 [6; 7]).
  destruct (checked_ok (opened ++ parts) (fun st _ => stepped x st (fun _ e => match e with [Execute k op r false; Sent _ _ _ _ _] => r_len r =? 27 | _ => false end))) as (st & e & RC & R & K);
    [vm_compute; reflexivity|intros y [<-|[<-|[<-|[<-|[<-|[]]]]]]; reflexivity|].
  apply stepped_ok in K; [|reflexivity]. destruct K as (st' & e' & VX & EX & K).
  destruct e' as [|[| k op r err| | | | | | |] [|[| | | | | | | |] [|]]]; try discriminate K. all: destruct err; try discriminate K. apply Z.eqb_eq in K.
  destruct (head_check_ok (fst x) (fun h => negb (h_frag h =? 0))) as (h & HH & HC & _); [vm_compute; reflexivity|]. apply negb_true_iff, Z.eqb_neq in HC.
  eexists st, e, st', _, h, k, r. cbn zeta. split; [exact R|]. split.
  { rewrite app_assoc. apply Forall_app. split; [apply RC|constructor; [exact VX|constructor]]. }
  split.
  { assert (Q : forall y : input * hres, head_check (fst y) (fun h => match fst y with IDatagram _ _ _ len _ => 80 + h_bodylen h <=? len | _ => false end) = true -> honest (fst y)).
    { intros y Q. destruct (head_check_ok _ _ Q) as (h0 & HH0 & HC0 & UQ). destruct (fst y) as [ip1 port1 frame1 len1 old1| | | |]; try exact I. intros h1 r1 G1.
      assert (h1 = h0) by (apply UQ; split; [apply HH0|exists r1; exact G1]). subst h1. apply Z.leb_le. exact HC0. }
    apply Forall_forall. intros y Y. apply Q. destruct Y as [<-|[<-|[<-|[<-|[<-|[<-|[]]]]]]]; vm_compute; reflexivity. }
  split; [exact EX|]. split; [exact HH|]. split; [exact HC|]. split; [|exact K]. left. exists op. left. reflexivity.
Qed.

(** The last fragment of a write alone: the handler runs, on the content of this fragment. *)
Theorem C90_lost_refuted : exists h st e k r mem, let x := part 1 1 first_part in
  input_ok x /\ has_header (fst x) h /\ h_frag h <> 0 /\ h_fragnmb h = 1 /\ step small x (rpc_init small) = Ok (st, e) /\ In (Execute k 3 r true) e /\
  r_buf r = Some mem /\ r_len r = 80 + Z.of_nat (length first_part) /\ firstn (length first_part) (skipn 80 mem) = first_part.
Proof.
  set (x := part 1 1 first_part).
  assert (K : stepped x (rpc_init small) (fun _ e => match e with Execute k op r true :: _ => (op =? 3) && ((r_len r =? 102) && match r_buf r with Some m => same_bytes (firstn 22 (skipn 80 m)) first_part | None => false end) | _ => false end) = true) by (vm_compute; reflexivity).
  apply stepped_ok in K; [|reflexivity]. destruct K as (st' & e' & VX & EX & K).
  destruct e' as [|[| k op r err| | | | | | |] e']; try discriminate K. destruct err; [|discriminate K]. apply andb_prop in K. destruct K as [K1 K]. apply andb_prop in K. destruct K as [K2 K].
  apply Z.eqb_eq in K1, K2. destruct (r_buf r) as [m|] eqn:RB; [|discriminate K]. apply same_bytes_eq in K. subst op.
  destruct (head_check_ok (fst x) (fun h => negb (h_frag h =? 0) && (h_fragnmb h =? 1))) as (h & HH & HC & _); [vm_compute; reflexivity|]. rewrite andb_true_iff, negb_true_iff, Z.eqb_neq, Z.eqb_eq in HC. destruct HC as [H1 H2].
  exists h, st'. eexists _. exists k, r, m. cbn zeta. split; [exact VX|]. split; [exact HH|]. split; [exact H1|]. split; [exact H2|]. split; [exact EX|]. split; [left; reflexivity|]. split; [exact RB|]. split; [exact K2|exact K].
Qed.
Print Assumptions C90_lost_refuted.

(** A fragment that is shorter than its header says: the handler gets what is behind it in
    the memory of the frame, i.e. parts of earlier datagrams. *)
Definition short_part (rest : list Z) : input * hres :=
  (IDatagram 1 50001 (frame_with (header 0 1 1 1 4 3 (Z.of_nat (length rest)) uuid_io_device (client 1)) rest) 80 [0; 0; 0; 0; 0; 0; 0; 0], plain).
Theorem C90_stale_refuted : exists l st st' e' k r mem, let x := short_part [9; 8; 7] in
  l = opened ++ [part 0 0 first_part] /\ reached small l st /\ input_ok x /\ step small x st = Ok (st', e') /\ In (Execute k 3 r false) e' /\ r_buf r = Some mem /\ firstn (Z.to_nat (r_len r)) mem = first_part ++ [9; 8; 7] /\
  match fst x with IDatagram _ _ _ len _ => len = 80 | _ => False end.
Proof.
  set (x := short_part [9; 8; 7]). set (l := opened ++ [part 0 0 first_part]).
  destruct (checked_ok l (fun st _ => stepped x st (fun _ e => match e with Execute k op r false :: _ => (op =? 3) && match r_buf r with Some m => same_bytes (firstn (Z.to_nat (r_len r)) m) (first_part ++ [9; 8; 7]) | None => false end | _ => false end))) as (st & e & RC & R & K);
    [vm_compute; reflexivity|intros y [<-|[<-|[]]]; reflexivity|].
  apply stepped_ok in K; [|reflexivity]. destruct K as (st' & e' & VX & EX & K).
  destruct e' as [|[| k op r err| | | | | | |] e']; try discriminate K. destruct err; [discriminate K|]. apply andb_prop in K. destruct K as [K1 K].
  apply Z.eqb_eq in K1. destruct (r_buf r) as [m|] eqn:RB; [|discriminate K]. apply same_bytes_eq in K. subst op.
  exists l, st, st'. eexists _. exists k, r, m. cbn zeta. split; [reflexivity|]. split; [exact RC|]. split; [exact VX|]. split; [exact EX|]. split; [left; reflexivity|]. split; [exact RB|]. split; [exact K|reflexivity].
Qed.
Print Assumptions C90_stale_refuted.

(** A second copy of the first fragment, after others: the message is lost. *)
Theorem C90_restart_refuted : exists l st st' e' k r, let x := part 2 1 [6; 7] in
  l = opened ++ [part 0 0 first_part; part 1 0 [3; 4; 5]; part 0 0 first_part] /\ reached small l st /\ input_ok x /\ step small x st = Ok (st', e') /\ In (Execute k 3 r true) e'.
Proof.
  set (x := part 2 1 [6; 7]). set (l := opened ++ [part 0 0 first_part; part 1 0 [3; 4; 5]; part 0 0 first_part]).
  destruct (checked_ok l (fun st _ => stepped x st (fun _ e => match e with Execute k op r true :: _ => op =? 3 | _ => false end))) as (st & e & RC & R & K);
    [vm_compute; reflexivity|intros y [<-|[<-|[<-|[<-|[]]]]]; reflexivity|].
  apply stepped_ok in K; [|reflexivity]. destruct K as (st' & e' & VX & EX & K).
  destruct e' as [|[| k op r err| | | | | | |] e']; try discriminate K. destruct err; [|discriminate K]. apply Z.eqb_eq in K. subst op.
  exists l, st, st'. eexists _. exists k, r. cbn zeta. split; [reflexivity|]. split; [exact RC|]. split; [exact VX|]. split; [exact EX|left; reflexivity].
Qed.
Print Assumptions C90_restart_refuted.
