(** C91: no datagram harms the device. *)
From Coq Require Import List ZArith Arith Bool Lia.
From Verif Require Import Base CpmModel CpmProps PpmModel PpmProps BlockModel BlockReadLemmas BlockReadProps BlockWriteProps RpcModel RpcLemmas RpcInv RpcStep.
Import ListNotations.
Local Open Scope Z_scope.

(** Inputs that can occur: the memory for a received datagram has 1500 bytes, at most
    that many are received; UUIDs are well-formed. *)
Definition input_ok (x : input * hres) : Prop :=
  uuid_ok (o_uuid (snd x)) /\
  match fst x with
  | IDatagram ip port frame len old => frame_ok frame /\ len <= 1500 /\ length old = 8%nat
  | IReady _ _ obj => uuid_ok obj
  | _ => True
  end.

Lemma uuid_eqb_eq : forall a b, uuid_eqb a b = true <-> a = b.
Proof.
  intros [a1 a2 a3 a4] [b1 b2 b3 b4]. unfold uuid_eqb, blist_eqb. cbn [u_d1 u_d2 u_d3 u_d4].
  rewrite !andb_true_iff, !Z.eqb_eq. destruct (list_eq_dec Z.eq_dec a4 b4) as [->|n].
  - split; [intros [[[-> ->] ->] _]; reflexivity|]. intros E. assert (a1 = b1 /\ a2 = b2 /\ a3 = b3) by (split; [|split]; congruence). tauto.
  - split; [intros [_ E]; discriminate|]. intros E. congruence.
Qed.

(** The inputs that do harm. *)
Definition harmful (c : cfg) (st : net) (x : input * hres) : Prop :=
  match fst x with
  | IDatagram ip port frame len old =>
    step c x st = AssertFail /\ 0 < len /\
    exists h r k, get_dce_rpc_header old old old (mkRd (Some frame) len false POk 0) = Ok (h, r) /\
      h_ptype h = 2 /\ h_opnum h = 4 /\ s_used (sess_at c st k) = true /\ s_uuid (sess_at c st k) = h_activity h /\ s_ar (sess_at c st k) = None
  | IResend k => step c x st = Ub /\ s_resend (sess_at c st k) = true /\ s_counter (sess_at c st k) = 0 /\ s_ar (sess_at c st k) = None
  | _ => False
  end.

Lemma step_ok : forall c x st, cfg_ok c -> net_ok c st -> input_ok x ->
  (exists st' e, step c x st = Ok (st', e) /\ net_ok c st') \/ harmful c st x.
Proof.
  intros c [i o] st C N [U V]. unfold harmful. cbn [fst snd] in *. destruct i as [ip port frame len old|k|k|i|i sock obj]; cbn [step].
  - destruct V as (F & LL & LO). unfold datagram. destruct (Z.leb_spec len 0) as [Z0|Z0]; [left; eexists _, _; split; [reflexivity|exact N]|].
    destruct (parse_ok frame len old F ltac:(lia) LO) as (h & r & E & H & R & P & _). rewrite E. cbn [obind].
    destruct (packet_ok c o ip port frame h r st C N H R P F) as [A|(A & B1 & B2 & k & B3 & B4 & B5)]; [left; exact A|right].
    split; [exact A|]. split; [exact Z0|]. exists h, r, k. split; [reflexivity|]. split; [exact B1|]. split; [exact B2|]. split; [exact B3|].
    split; [|exact B5]. symmetry. apply uuid_eqb_eq. exact B4.
  - destruct (s_resend (sess_at c st k)) eqn:ER; [|left; eexists _, _; split; [reflexivity|exact N]].
    pose proof (proj2 N k) as (_ & _ & _ & _ & _ & I6).
    destruct (Z.lt_ge_cases (s_socket (sess_at c st k)) 0) as [G0|G0].
    { left. apply send_with_timeout_ok; [exact C|exact N|]. auto. }
    destruct (s_ar (sess_at c st k)) eqn:EA.
    { left. apply send_with_timeout_ok; [exact C|exact N|]. right; right. congruence. }
    destruct (Z.lt_ge_cases 0 (s_counter (sess_at c st k))) as [G|G].
    { left. apply send_with_timeout_ok; [exact C|exact N|]. auto. }
    right. split; [|split; [reflexivity|split; [lia|reflexivity]]]. unfold send_with_timeout.
    destruct (Z.ltb_spec (s_socket (sess_at c st k)) 0); [lia|]. destruct (Z.ltb_spec 0 (s_counter (sess_at c st k))); [lia|]. rewrite EA. reflexivity.
  - left. destruct (s_epmtimer (sess_at c st k)); [|eexists _, _; split; [reflexivity|exact N]].
    pose proof (release_net_ok c k st C N) as N1. destruct (release c k st) as [st1 e]. eexists _, _. split; [reflexivity|exact N1].
  - left. pose proof (abort_net_ok c i st C N) as N1. destruct (abort c i st) as [st1 e]. eexists _, _. split; [reflexivity|exact N1].
  - left. apply ccontrol_ok; assumption.
Qed.

Lemma step_net_ok : forall c x st st' e, cfg_ok c -> net_ok c st -> input_ok x -> step c x st = Ok (st', e) -> net_ok c st'.
Proof.
  intros c x st st' e C N V E. destruct (step_ok c x st C N V) as [(st3 & e3 & E3 & N3)|B].
  - rewrite E3 in E. injection E as <- <-. exact N3.
  - unfold harmful in B. destruct (fst x); try contradiction; destruct B as [B _]; rewrite B in E; discriminate.
Qed.

Lemma run_net_ok : forall c l st st' e, cfg_ok c -> net_ok c st -> Forall input_ok l -> run c l st = Ok (st', e) -> net_ok c st'.
Proof.
  intros c l. induction l as [|x l IH]; intros st st' e C N F R; cbn [run] in R.
  - injection R as <- <-. exact N.
  - destruct (step c x st) as [[st1 e1]| |] eqn:E; cbn [obind] in R; try discriminate.
    destruct (run c l st1) as [[st2 e2]| |] eqn:E2; cbn [obind] in R; try discriminate. injection R as <- <-.
    inversion F; subst. apply (IH st1 st2 e2 C); [|assumption|exact E2]. eapply step_net_ok; eauto.
Qed.

(** States after a history. *)
Definition reached (c : cfg) (l : list (input * hres)) (st : net) : Prop :=
  Forall input_ok l /\ exists e, run c l (rpc_init c) = Ok (st, e).

Lemma reached_ok : forall c l st, cfg_ok c -> reached c l st -> net_ok c st.
Proof. intros c l st C [F [e R]]. eapply run_net_ok; eauto using init_ok. Qed.

(** The type of a datagram is in the low five bits of its second byte. *)
Lemma bind_inv : forall A B (m : reader A) (f : A -> reader B) r b r', rbind m f r = Ok (b, r') -> exists a r1, m r = Ok (a, r1) /\ f a r1 = Ok (b, r').
Proof. intros A B m f r b r' H. unfold rbind in H. destruct (m r) as [[a r1]| |]; try discriminate. cbn [obind] in H. eauto. Qed.

Lemma ptype_of : forall a b c frame len h r, (2 <= length frame)%nat -> 2 <= len -> 
  get_dce_rpc_header a b c (mkRd (Some frame) len false POk 0) = Ok (h, r) -> h_ptype h = Z.land (nth 1 frame 0) 31.
Proof.
  intros a b c [|x0 [|x1 t]] len h r F L H; cbn [length] in F; try lia. unfold get_dce_rpc_header in H.
  apply bind_inv in H. destruct H as (v & r1 & E1 & H). apply bind_inv in H. destruct H as (pt & r2 & E2 & H).
  assert (pt = x1).
  { unfold get_byte in E1. cbn [r_res is_ok negb r_len r_pos r_buf] in E1. destruct (Z.leb_spec len 0); [lia|].
    cbn in E1. injection E1 as <- <-. unfold get_byte, set_pos in E2. cbn [r_res is_ok negb r_len r_pos r_buf] in E2.
    destruct (Z.leb_spec len 1); [lia|].
    unfold byte_at in E2. cbn [length] in E2. destruct (Z.ltb_spec 1 (Z.of_nat (S (S (length t))))); [|lia].
    cbn in E2. injection E2 as <- <-. reflexivity. }
  subst pt. repeat (apply bind_inv in H; destruct H as (? & ? & _ & H)). unfold rret in H. injection H as <- _. reflexivity.
Qed.

Lemma ptype_short : forall a b c frame h r, (1 <= length frame)%nat ->
  get_dce_rpc_header a b c (mkRd (Some frame) 1 false POk 0) = Ok (h, r) -> h_ptype h = 0.
Proof.
  intros a b c [|x0 t] h r F H; cbn [length] in F; try lia. unfold get_dce_rpc_header in H.
  apply bind_inv in H. destruct H as (v & r1 & E1 & H). apply bind_inv in H. destruct H as (pt & r2 & E2 & H).
  assert (pt = 0). { cbn in E1. injection E1 as <- <-. cbn in E2. injection E2 as <- _. reflexivity. }
  subst pt. repeat (apply bind_inv in H; destruct H as (? & ? & _ & H)). unfold rret in H. injection H as <- _. reflexivity.
Qed.

(** C91: after every history, every input is handled without an assertion failure and
    without undefined behaviour, except (1) a RESPONSE to a control request for
    a session without connection and (2) the last expiry of the repetition timer
    of a session without connection. *)
Theorem C91_no_harm_partial : forall c l st x, cfg_ok c -> reached c l st -> input_ok x ->
  (exists st' e, step c x st = Ok (st', e)) \/
  (exists ip port frame len old h r k, fst x = IDatagram ip port frame len old /\
     get_dce_rpc_header old old old (mkRd (Some frame) len false POk 0) = Ok (h, r) /\
     h_ptype h = 2 /\ h_opnum h = 4 /\
     s_used (sess_at c st k) = true /\ s_uuid (sess_at c st k) = h_activity h /\ s_ar (sess_at c st k) = None) \/
  (exists k, fst x = IResend k /\ s_resend (sess_at c st k) = true /\ s_counter (sess_at c st k) = 0 /\ s_ar (sess_at c st k) = None).
Proof.
  intros c l st x C R V. destruct (step_ok c x st C (reached_ok c l st C R) V) as [(st' & e & E & _)|B]; [left; eauto|right].
  unfold harmful in B. destruct (fst x) as [ip port frame len old|k| | |] eqn:E; try contradiction.
  - left. destruct B as (_ & _ & h & r & k & B). exists ip, port, frame, len, old, h, r, k. split; [reflexivity|exact B].
  - right. exists k. split; [reflexivity|]. destruct B as [_ B]. exact B.
Qed.
Print Assumptions C91_no_harm_partial.

(** A datagram of any length and content that is not a RESPONSE is always handled. *)
Theorem C91_not_a_response : forall c l st ip port frame len old o, cfg_ok c -> reached c l st ->
  input_ok (IDatagram ip port frame len old, o) ->
  len < 2 \/ nth 1 frame 0 mod 32 <> 2 ->
  exists st' e, step c (IDatagram ip port frame len old, o) st = Ok (st', e).
Proof.
  intros c l st ip port frame len old o C R V T.
  destruct (step_ok c _ st C (reached_ok c l st C R) V) as [(st' & e & E & _)|B]; [eauto|exfalso].
  destruct V as (_ & [F1 F2] & LL & LO). unfold harmful in B. cbn [fst] in B. destruct B as (_ & L0 & h & r & k & E & P & _).
  destruct (Z.lt_ge_cases len 2) as [G|G].
  - replace len with 1 in E by lia. apply ptype_short in E; [lia|rewrite F1; lia].
  - apply ptype_of in E; [|rewrite F1; lia|exact G]. change 31 with (Z.ones 5) in E. rewrite Z.land_ones in E by lia. change (2 ^ 5) with 32 in E. lia.
Qed.
Print Assumptions C91_not_a_response.

(** If every session in use has a connection, no input does harm. *)
Theorem C91_connected : forall c l st x, cfg_ok c -> reached c l st -> input_ok x ->
  (forall k, s_used (sess_at c st k) = true -> s_ar (sess_at c st k) <> None) ->
  (forall k, s_resend (sess_at c st k) = true -> s_used (sess_at c st k) = true) ->
  exists st' e, step c x st = Ok (st', e).
Proof.
  intros c l st x C R V A B. destruct (C91_no_harm_partial c l st x C R V) as [G|[(ip & port & frame & len & old & h & r & k & _ & _ & _ & _ & U & _ & N)|(k & _ & T & _ & N)]];
    [exact G|exfalso; exact (A k U N)|exfalso; exact (A k (B k T) N)].
Qed.
Print Assumptions C91_connected.

(** * Concrete datagrams *)

(** A datagram: header, body, rest of the memory. *)
Definition frame_with (h : rpch) (body : list Z) : list Z := firstn 1500 (hbytes h ++ body ++ repeat 0 1500).
Definition no_uuid : uuid := mkUuid 0 0 0 [0; 0; 0; 0; 0; 0; 0; 0].
Definition client (n : Z) : uuid := mkUuid n 1 2 [1; 2; 3; 4; 5; 6; 7; 8].
Definition header (pt frag last fragnmb seq op bodylen : Z) (ifc act : uuid) : rpch :=
  mkRpch 4 pt last frag 0 0 1 0 0 true 0 0 0 no_uuid ifc act 0 1 seq op 65535 65535 bodylen fragnmb 0 0.
Definition send_to (n port : Z) (pt frag last fragnmb seq op : Z) (ifc : uuid) (body : list Z) : input :=
  let h := header pt frag last fragnmb seq op (Z.of_nat (length body)) ifc (client n) in
  IDatagram n port (frame_with h body) (80 + Z.of_nat (length body)) [0; 0; 0; 0; 0; 0; 0; 0].
Definition plain : hres := mkHres [1; 2; 3] ENone true false false false (client 99) true true.
Definition with_effect (e : effect) : hres := mkHres [1; 2; 3] e true false false false (client 99) true true.
Definition small : cfg := mkCfg 4500 3 2 10 11.
(** NDR header: 20 bytes with a large limit for the response. *)
Definition ndr_bytes : list Z := [0; 0; 255; 255] ++ repeat 0 16.
Definition after (l : list (input * hres)) : net := match run small l (rpc_init small) with Ok (st, _) => st | _ => rpc_init small end.
Definition trace (l : list (input * hres)) : list ev := match run small l (rpc_init small) with Ok (_, e) => e | _ => [] end.
Definition ended (l : list (input * hres)) : bool := match run small l (rpc_init small) with Ok _ => true | _ => false end.

Fixpoint check_bytes (l : list Z) : bool := match l with [] => true | x :: t => (0 <=? x) && (x <? 256) && check_bytes t end.
Lemma check_bytes_ok : forall l, check_bytes l = true -> Forall byte l.
Proof.
  induction l as [|x t IH]; intros H; constructor; cbn [check_bytes] in H; rewrite !andb_true_iff, Z.leb_le, Z.ltb_lt in H.
  - unfold byte. lia.
  - apply IH. tauto.
Qed.
Definition input_check (x : input * hres) : bool :=
  match fst x with
  | IDatagram ip port frame len old => Nat.eqb (length frame) 1500 && check_bytes frame && (len <=? 1500) && Nat.eqb (length old) 8
  | IReady _ _ _ => false
  | _ => true
  end.
Lemma input_check_ok : forall x, uuid_ok (o_uuid (snd x)) -> input_check x = true -> input_ok x.
Proof.
  intros [i o] U H. split; [exact U|]. unfold input_check in H. cbn [fst snd] in *. destruct i; try exact I; [|discriminate].
  rewrite !andb_true_iff, !Nat.eqb_eq, Z.leb_le in H. destruct H as (((H1 & H2) & H3) & H4). apply check_bytes_ok in H2.
  split; [split; assumption|]. split; assumption.
Qed.
Lemma client_ok : uuid_ok (client 99).
Proof. unfold uuid_ok, client. cbn. repeat split; try lia. Qed.
Lemma reached_check : forall l, ended l = true -> (forall x, In x l -> o_uuid (snd x) = client 99) -> forallb input_check l = true -> reached small l (after l).
Proof.
  intros l E U H. split.
  - apply Forall_forall. intros x I. apply input_check_ok; [rewrite (U x I); exact client_ok|]. rewrite forallb_forall in H. exact (H x I).
  - unfold ended, after in *. destruct (run small l (rpc_init small)) as [[st e]| |]; try discriminate. eauto.
Qed.

(** Checks of the states after a history and after a further input. *)
Definition checked (l : list (input * hres)) (f : net -> list ev -> bool) : bool :=
  forallb input_check l && match run small l (rpc_init small) with Ok (st, e) => f st e | _ => false end.
Lemma checked_ok : forall l f, checked l f = true -> (forall x, In x l -> o_uuid (snd x) = client 99) ->
  exists st e, reached small l st /\ run small l (rpc_init small) = Ok (st, e) /\ f st e = true.
Proof.
  intros l f K U. unfold checked in K. apply andb_prop in K. destruct K as [V K]. destruct (run small l (rpc_init small)) as [[st e]| |] eqn:E; [|discriminate K|discriminate K].
  exists st, e. split; [|auto]. split; [|eauto].
  apply Forall_forall. intros x I. apply input_check_ok; [rewrite (U x I); exact client_ok|]. rewrite forallb_forall in V. exact (V x I).
Qed.
Definition stepped (x : input * hres) (st : net) (f : net -> list ev -> bool) : bool :=
  input_check x && match step small x st with Ok (st1, e) => f st1 e | _ => false end.
Lemma stepped_ok : forall x st f, stepped x st f = true -> o_uuid (snd x) = client 99 -> exists st1 e, input_ok x /\ step small x st = Ok (st1, e) /\ f st1 e = true.
Proof.
  intros x st f K U. unfold stepped in K. apply andb_prop in K. destruct K as [V K]. destruct (step small x st) as [[st1 e]| |]; [|discriminate K|discriminate K].
  exists st1, e. split; [apply input_check_ok; [rewrite U; exact client_ok|exact V]|auto].
Qed.
Definition asserts (x : input * hres) (st : net) : bool := input_check x && match step small x st with AssertFail => true | _ => false end.
Lemma asserts_ok : forall x st, asserts x st = true -> o_uuid (snd x) = client 99 -> input_ok x /\ step small x st = AssertFail.
Proof.
  intros x st K U. unfold asserts in K. apply andb_prop in K. destruct K as [V K]. split; [apply input_check_ok; [rewrite U; exact client_ok|exact V]|].
  destruct (step small x st) as [[st1 e]| |]; [discriminate K|reflexivity|discriminate K].
Qed.
Definition undefined (x : input * hres) (st : net) : bool := input_check x && match step small x st with Ub => true | _ => false end.
Lemma undefined_ok : forall x st, undefined x st = true -> o_uuid (snd x) = client 99 -> input_ok x /\ step small x st = Ub.
Proof.
  intros x st K U. unfold undefined in K. apply andb_prop in K. destruct K as [V K]. split; [apply input_check_ok; [rewrite U; exact client_ok|exact V]|].
  destruct (step small x st) as [[st1 e]| |]; [discriminate K|discriminate K|reflexivity].
Qed.
Definition is_some (i : nat) (x : option nat) : bool := match x with Some j => Nat.eqb i j | None => false end.
Lemma is_some_eq : forall i x, is_some i x = true -> x = Some i.
Proof. intros i [j|] H; [|discriminate]. apply Nat.eqb_eq in H. congruence. Qed.
Fixpoint same_bytes (a b : list Z) : bool := match a, b with [], [] => true | x :: a', y :: b' => (x =? y) && same_bytes a' b' | _, _ => false end.
Lemma same_bytes_eq : forall a b, same_bytes a b = true -> a = b.
Proof.
  induction a as [|x a IH]; intros [|y b] H; try discriminate; [reflexivity|]. cbn [same_bytes] in H. apply andb_prop in H. destruct H as [H1 H2].
  apply Z.eqb_eq in H1. rewrite H1, (IH b H2). reflexivity.
Qed.

(** A history to which the theorems apply: a connect request that is accepted, a ping,
    a fragment of a request of another client. *)
Definition story : list (input * hres) :=
  [(send_to 1 50001 0 0 0 0 1 0 uuid_io_device ndr_bytes, with_effect (EConnect true));
   (send_to 1 50001 1 0 0 0 2 0 uuid_io_device [], plain);
   (send_to 2 50002 0 1 0 0 1 3 uuid_io_device [5; 6; 7], plain)].
Example C91_example : exists st, reached small story st /\ s_ar (sess_at small st 0) = Some 0%nat /\
  s_used (sess_at small st 1) = true /\ s_in_len (sess_at small st 1) = 3 /\
  exists e b e', run small story (rpc_init small) = Ok (st, e) /\ e = Execute 0 0 b false :: e' /\ r_pos b = 100.
Proof.
  destruct (checked_ok story (fun st e => is_some 0 (s_ar (sess_at small st 0)) && s_used (sess_at small st 1) && (s_in_len (sess_at small st 1) =? 3) &&
    match e with Execute 0 op b false :: _ => (op =? 0) && (r_pos b =? 100) | _ => false end)) as (st & e & RC & R & K);
    [vm_compute; reflexivity|intros x [<-|[<-|[<-|[]]]]; reflexivity|].
  apply andb_prop in K. destruct K as [K KE]. apply andb_prop in K. destruct K as [K K3]. apply andb_prop in K. destruct K as [K1 K2].
  exists st. split; [exact RC|].
  split; [apply is_some_eq; exact K1|]. split; [exact K2|]. split; [apply Z.eqb_eq; exact K3|].
  destruct e as [|[k socket ip port b|[|k] op b [|]|k op|k b err|k i b|i k|i|i|s] e']; try discriminate KE. apply andb_prop in KE. destruct KE as [KE1 KE2]. apply Z.eqb_eq in KE1, KE2. subst op.
  exists (Execute 0 0 b false :: e'), b, e'. split; [exact R|]. split; [reflexivity|exact KE2].
Qed.

(** Finding: two datagrams of an unknown client (an acknowledge, then a RESPONSE to a
    control request) lead to a failing assertion (with asserts switched off: to an
    access through a NULL pointer, pf_cmrpc.c:4158). *)
Definition two_datagrams : list (input * hres) :=
  [(send_to 7 50007 9 0 0 0 0 0 uuid_io_device [], plain)].
Theorem C91_response_refuted : exists c l st x, cfg_ok c /\ reached c l st /\ input_ok x /\ length l = 1%nat /\ step c x st = AssertFail.
Proof.
  set (x := (send_to 7 50007 2 0 0 0 0 4 uuid_io_controller (repeat 0 60), mkHres [] ENone true false false false (client 99) true true)).
  destruct (checked_ok two_datagrams (fun st _ => asserts x st)) as (st & e & RC & R & K); [vm_compute; reflexivity|intros y [<-|[]]; reflexivity|].
  destruct (asserts_ok x st K eq_refl) as [V A].
  exists small, two_datagrams, st, x. split; [unfold cfg_ok; cbn; lia|]. split; [exact RC|]. split; [exact V|]. split; [reflexivity|exact A].
Qed.

(** Finding: a response with more than 1440 bytes on a session without connection (a
    write of many records that names the connection of another session), never
    acknowledged: when the repetitions are used up, the connection of the session is
    accessed through a NULL pointer (pf_cmrpc.c:1131). *)
Definition long_answer : list (input * hres) :=
  (send_to 7 50007 0 0 0 0 5 3 uuid_io_device ndr_bytes, mkHres (repeat 1 2000) ENone true false false false (client 99) true true) ::
  repeat (IResend 0, plain) 2.
Theorem C91_timer_refuted : exists c l st x, cfg_ok c /\ reached c l st /\ input_ok x /\ step c x st = Ub.
Proof.
  destruct (checked_ok long_answer (fun st _ => undefined (IResend 0, plain) st)) as (st & e & RC & R & K); [vm_compute; reflexivity|intros y [<-|[<-|[<-|[]]]]; reflexivity|].
  destruct (undefined_ok _ st K eq_refl) as [V A].
  exists small, long_answer, st, (IResend 0, plain). split; [unfold cfg_ok; cbn; lia|]. split; [exact RC|]. split; [exact V|exact A].
Qed.
Print Assumptions C91_timer_refuted.
