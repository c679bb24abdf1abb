(** C92, C93: responses arrive completely; repetitions (theorems). *)
From Coq Require Import List ZArith Arith Bool Lia.
From Verif Require Import Base CpmModel CpmProps PpmModel PpmProps BlockModel BlockReadLemmas BlockReadProps BlockWriteProps RpcModel RpcLemmas RpcInv RpcStep RpcProps RpcFrame RpcIdent RpcAnswer RpcReply.
Import ListNotations.
Local Open Scope Z_scope.

Definition nosent (e : list ev) : Prop := forall k, sent_by k e = [].
Lemma nosent_app : forall a b, nosent a -> nosent b -> nosent (a ++ b).
Proof. intros a b A B k. rewrite sent_by_app, A, B. reflexivity. Qed.
Lemma nosent_nil : nosent [].
Proof. intros k. reflexivity. Qed.
Lemma nosent_cons : forall x e, (forall k s i p b, x <> Sent k s i p b) -> nosent e -> nosent (x :: e).
Proof. intros x e X E k. destruct x; try exact (E k). exfalso. eapply X. reflexivity. Qed.
Lemma release_nosent : forall c k st, nosent (snd (release c k st)).
Proof. intros c k st. unfold release. destruct (s_used _); [|apply nosent_nil]. cbn [snd]. destruct (_ && _); intros j; reflexivity. Qed.
Lemma release_by_ar_nosent : forall c i ks st, nosent (snd (release_by_ar c i ks st)).
Proof.
  intros c i ks. induction ks as [|k t IH]; intros st; cbn [release_by_ar]; [apply nosent_nil|].
  destruct (_ && _); [|apply IH]. pose proof (release_nosent c k st) as A. destruct (release c k st) as [st1 e1].
  specialize (IH st1). destruct (release_by_ar c i t st1) as [st2 e2]. cbn [snd] in *. apply nosent_app; assumption.
Qed.
Lemma abort_nosent : forall c i st, nosent (snd (abort c i st)).
Proof.
  intros c i st. unfold abort. destruct (ar_at st i) as [k|]; [|apply nosent_nil].
  assert (A : nosent (snd (if s_release (sess_at c st k) then (st, []) else release c k st))).
  { destruct (s_release (sess_at c st k)); [apply nosent_nil|apply release_nosent]. }
  destruct (if s_release (sess_at c st k) then (st, []) else release c k st) as [st1 e1].
  pose proof (release_by_ar_nosent c i (seq 0 (c_sessions c)) st1) as B. destruct (release_by_ar c i (seq 0 (c_sessions c)) st1) as [st2 e2]. cbn [snd] in *.
  apply nosent_cons; [discriminate|]. apply nosent_app; assumption.
Qed.
Lemma handle_nosent : forall c o k h r st, nosent (snd (fst (handle c o k h r st))).
Proof.
  intros c o k h r st. unfold handle. destruct (uuid_eqb (h_interface h) uuid_io_device).
  2:{ destruct (uuid_eqb (h_interface h) uuid_epmap); intros j; reflexivity. }
  unfold rpc_request.
  destruct (h_opnum h =? op_connect).
  { assert (A : nosent (snd (do_connect c o k (s_err (sess_at c st k)) st))).
    { unfold do_connect. destruct (s_err _); [apply nosent_nil|]. destruct (o_effect o) as [| |[]|i|i]; try apply nosent_nil.
      - destruct (free_ar _ _); [intros j; reflexivity|apply nosent_nil].
      - destruct (ar_at st i); [apply abort_nosent|apply nosent_nil]. }
    destruct (do_connect c o k _ st) as [st1 e1]. cbn [fst snd] in *. apply nosent_cons; [discriminate|exact A]. }
  destruct (h_opnum h =? op_release).
  { assert (A : nosent (snd (do_release c o k (s_err (sess_at c st k)) st))).
    { unfold do_release. destruct (s_err _); [apply nosent_nil|]. destruct (o_effect o) as [| | | |i]; try apply nosent_nil.
      pose proof (abort_nosent c i st) as B. destruct (abort c i st). exact B. }
    destruct (do_release c o k _ st) as [st1 e1]. cbn [fst snd] in *. apply nosent_cons; [discriminate|exact A]. }
  destruct (h_opnum h =? op_read); [intros j; reflexivity|]. destruct (h_opnum h =? op_write); [intros j; reflexivity|].
  destruct (h_opnum h =? op_control).
  { destruct (o_parsed o); [|apply nosent_nil]. destruct (_ =? _); intros j; reflexivity. }
  destruct (h_opnum h =? op_read_implicit); intros j; reflexivity.
Qed.

Lemma send_buffer_ok : forall o k s b, b <> [] -> 0 <= s_socket s -> o_sent o = true -> send_buffer o k s b = (true, [Sent k (s_socket s) (s_ip s) (s_port s) b]).
Proof.
  intros o k s b B S0 O. unfold send_buffer. destruct b as [|x y]; [congruence|]. destruct (Z.ltb_spec (s_socket s) 0); [lia|]. rewrite O. reflexivity.
Qed.
Lemma ok_inv : forall (A B : Type) (a a' : A) (b b' : B), Ok (a, b) = Ok (a', b') -> a = a' /\ b = b'.
Proof. intros A B a a' b b' E. inversion E. auto. Qed.

(** A request in one datagram, in session [k]. *)
Definition started (ip port : Z) (h : rpch) (s : sess) : sess := with_out (acked ip port h s) (s_out s) 0 0 0 0.
Lemma with_err_ok : forall c s v, sess_ok c s -> sess_ok c (with_err s v).
Proof. intros c s v S. exact S. Qed.
Lemma with_resend_ok : forall c s v, sess_ok c s -> sess_ok c (with_resend s v (s_counter s)).
Proof. intros c s v S. exact S. Qed.
Lemma with_out_ok : forall c s, cfg_ok c -> sess_ok c s -> sess_ok c (with_out s (s_out s) 0 0 0 0).
Proof.
  intros c s C (B1 & B2 & B3 & B4 & B5 & B6). unfold cfg_ok in C. unfold sess_ok, out_ok. cbn [s_in s_out s_in_len s_in_frag s_out_len s_out_frag s_sent_pos s_send_len s_counter with_out].
  split; [exact B1|]. split; [exact B2|]. split; [exact B3|]. split; [exact B4|]. split; [split; [lia|left; lia]|exact B6].
Qed.
Lemma acked_out : forall ip port h s, s_out (acked ip port h s) = s_out s.
Proof. reflexivity. Qed.
Lemma acked_uuid : forall ip port h s, s_uuid (acked ip port h s) = h_activity h.
Proof. reflexivity. Qed.
Lemma acked_resend : forall ip port h s, s_resend (acked ip port h s) = false.
Proof. reflexivity. Qed.
Lemma acked_ok : forall c ip port h s, cfg_ok c -> sess_ok c s -> sess_ok c (acked ip port h s).
Proof. intros c ip port h s C S. unfold acked. cbn zeta. apply with_resend_ok, begin_ok; [exact C|]. apply with_err_ok. exact S. Qed.
Lemma started_ok : forall c ip port h s, cfg_ok c -> sess_ok c s -> sess_ok c (started ip port h s).
Proof. intros c ip port h s C S. unfold started. rewrite <- (acked_out ip port h s). apply with_out_ok; [exact C|]. apply acked_ok; assumption. Qed.
Lemma started_uuid : forall ip port h s, s_uuid (started ip port h s) = h_activity h.
Proof. intros ip port h s. exact (acked_uuid ip port h s). Qed.
Lemma started_resend : forall ip port h s, s_resend (started ip port h s) = false.
Proof. intros ip port h s. exact (acked_resend ip port h s). Qed.
Lemma request_step : forall c o ip port frame len old st st1 e k h r, 0 < len ->
  get_dce_rpc_header old old old (mkRd (Some frame) len false POk 0) = Ok (h, r) ->
  h_ptype h = 0 -> h_frag h = 0 -> h_bodylen h <= 1384 ->
  step c (IDatagram ip port frame len old, o) st = Ok (st1, e) -> s_used (sess_at c st1 k) = true -> cfg_ok c -> net_ok c st ->
  forall fresh stA, session_for c o ip port h st = Some (k, fresh, stA) ->
  answer_request c o k h r (set_sess stA k (started ip port h (sess_at c stA k))) = Ok (st1, e).
Proof.
  intros c o ip port frame len old st st1 e k h r L0 P T F B E U C N fresh stA SF. cbn [step] in E. unfold datagram in E.
  destruct (Z.leb_spec len 0); [lia|]. rewrite P in E. cbn [obind] in E. rewrite packet_steps, SF in E.
  destruct (session_for_ok _ _ _ _ _ _ _ _ _ C N SF) as (N1 & L1 & _).
  unfold session_step in E. cbn zeta in E. change max_body with 1384 in E. destruct (Z.ltb_spec 1384 (h_bodylen h)); [lia|].
  unfold collect in E. rewrite F in E. cbn [Z.eqb obind orb] in E. unfold act in E. cbn zeta in E. rewrite T in E. cbn [Z.eqb Pos.eqb pt_ping pt_request] in E.
  fold (acked ip port h (sess_at c stA k)) in E. rewrite sess_at_set_same, set_sess_twice in E by exact L1.
  change (with_out (acked ip port h (sess_at c stA k)) (s_out (acked ip port h (sess_at c stA k))) 0 0 0 0) with (started ip port h (sess_at c stA k)) in E.
  destruct (answer_request c o k h r _) as [[st3 e3]| |] eqn:E3; try discriminate. cbn [obind] in E.
  destruct (s_kill (sess_at c st3 k)) eqn:K; [|exact E]. exfalso.
  unfold release in E. destruct (s_used (sess_at c st3 k)) eqn:U3.
  - injection E as <- <-. rewrite sess_at_set_same in U; [discriminate|]. apply used_lt in U3. exact U3.
  - injection E as <- <-. congruence.
Qed.

Lemma limit_exact : forall c h r nd r1 n, cfg_ok c -> h_interface h = uuid_io_device -> get_ndr r = Ok (nd, r1) ->
  80 <= n -> n <= r_pos r1 + n_argsmax nd < 4294967296 -> n <= c_buf c ->
  exists m, request_limit c h r = Ok (m, r1, true) /\ n <= m <= c_buf c.
Proof.
  intros c h r nd r1 n C I G N L B. unfold cfg_ok in C. unfold request_limit. rewrite I. change (uuid_eqb uuid_io_device uuid_epmap) with false. cbn iota.
  rewrite G. cbn [obind]. eexists. split; [reflexivity|]. rewrite (u32_id (r_pos r1 + n_argsmax nd)) by lia.
  destruct (Z.ltb_spec (c_buf c) (r_pos r1 + n_argsmax nd)); [lia|]. rewrite u16_id by lia. lia.
Qed.

Lemma progress_first : forall c o k h r st st1 e nd r1 s, cfg_ok c -> net_ok c st -> hdr_in h -> rok r -> (k < length (n_sess st))%nat ->
  s = sess_at c st k -> s_uuid s = h_activity h ->
  h_interface h = uuid_io_device -> get_ndr r = Ok (nd, r1) ->
  80 + Z.of_nat (length (o_body o)) <= r_pos r1 + n_argsmax nd < 4294967296 -> 80 + Z.of_nat (length (o_body o)) <= c_buf c ->
  o_sent o = true -> o_timer o = true -> s_resend s = false ->
  answer_request c o k h r st = Ok (st1, e) ->
  s_used (sess_at c st1 k) = true -> 0 <= s_socket (sess_at c st1 k) -> s_from_me (sess_at c st1 k) = false ->
  Z.of_nat (length (o_body o)) < 1360 \/ Z.of_nat (length (o_body o)) mod 1360 <> 0 ->
  progress (o_body o) (h_activity h) (h_seq h) 0 (sess_at c st1 k) (reassemble (h_activity h) (h_seq h) (sent_by k e)) /\
  Forall (fun f => (length f <= 1440)%nat) (sent_by k e).
Proof.
  intros c o k h r st st1 e nd r1 s C N H R L ES EU HI G LM LB OS OT RS E U SK FM MZ. pose proof C as C0. unfold cfg_ok in C0.
  destruct (limit_exact c h r nd r1 (80 + Z.of_nat (length (o_body o))) C HI G ltac:(lia) LM LB) as (m & EL & M).
  unfold answer_request in E. rewrite EL in E. cbn [obind] in E.
  rewrite request_start_exact in E by (try assumption; try (apply N); lia). cbn [obind] in E. rewrite <- ES in E.
  assert (SS : sess_ok c s) by (rewrite ES; apply N).
  set (sA := request_session o h m true s) in *. set (stA := set_sess st k sA) in *.
  assert (LA : (k < length (n_sess stA))%nat) by (unfold stA; rewrite length_set_sess; exact L).
  assert (KA : sess_at c stA k = sA) by (apply sess_at_set_same; exact L).
  pose proof (handle_out c o k h (set_be r1 true) stA LA) as HO. pose proof (handle_nosent c o k h (set_be r1 true) stA) as HN.
  destruct (handle c o k h (set_be r1 true) stA) as [[st2 e1] prm] eqn:EH. cbn [fst snd] in HN. destruct HO as (L2' & KO & _). rewrite KA in KO.
  assert (L2 : (k < length (n_sess st2))%nat) by (rewrite L2'; exact LA).
  destruct (request_send c o k h m 80 74 true st2) as [[st3 e2]| |] eqn:E2; try discriminate. cbn [obind] in E. 
  assert (E1 : st3 = st1 /\ e = e1 ++ e2 ++ (if prm then match s_ar (sess_at c st3 k) with Some i => [ParamEnd i] | None => [] end else [])) by (injection E as <- <-; auto).
  clear E. destruct E1 as [-> ->].
  pose proof (request_send_idents _ _ _ _ _ _ _ _ _ _ _ L2 E2 k U) as (U2 & I2 & I3).
  destruct KO as [KO|[KO _]].
  2:{ unfold same_out in KO. decompose [and] KO. cbn in *. congruence. }
  rewrite (request_send_exact c o k h m true st2 s C SS H ltac:(lia) ltac:(lia) KO) in E2. cbn zeta in E2.
  assert (EB : body_of o h m = o_body o).
  { unfold body_of. rewrite HI. change (uuid_eqb uuid_io_device uuid_io_device) with true. cbn [orb]. apply firstn_all2. lia. }
  rewrite EB in E2. set (t := o_body o) in *. set (z := Z.of_nat (length t)) in *.
  set (s5 := sess_at c st2 k) in *.
  assert (NP : nosent (if prm then match s_ar (sess_at c st1 k) with Some i => [ParamEnd i] | None => [] end else [])).
  { destruct prm; [|apply nosent_nil]. destruct (s_ar _); intros j; reflexivity. }
  rewrite !sent_by_app, HN, NP, app_nil_r. cbn [Datatypes.app]. clear NP HN.
  destruct (hdr_in_bytes h H) as (HB & _).
  pose proof (whole_header_ok h true z H ltac:(lia)) as OKW. pose proof (first_header_ok h true H) as OKF.
  assert (UU : s_uuid (sess_at c st1 k) = h_activity h).
  { rewrite I2. unfold same_out in KO. decompose [and] KO. fold s5. unfold sA, request_session in *. cbn in *. destruct (h_opnum h =? op_release); cbn in *; congruence. }
  assert (R5 : s_resend s5 = false).
  { unfold same_out in KO. decompose [and] KO. unfold sA, request_session in *. cbn in *. destruct (h_opnum h =? op_release); cbn in *; congruence. }
  destruct (Z.ltb_spec (80 + z) 1440) as [GG|GG].
  - apply ok_inv in E2. destruct E2 as [E2a E2b]. rewrite <- E2b. clear E2b. rewrite <- E2a in *. rewrite sess_at_set_same in * by exact L2.
    rewrite send_buffer_ok; [|intros EN; pose proof (hbytes_length _ OKW) as LH; apply app_eq_nil in EN; destruct EN as [EN _]; rewrite EN in LH; discriminate|exact SK|exact OS].
    cbn [snd sent_by]. rewrite Nat.eqb_refl.
    split.
    + unfold reassemble. cbn [fold_left]. rewrite take_ok by (try assumption; try reflexivity; unfold z in *; lia). cbn [h_frag whole_header set_flags Z.eqb orb Datatypes.app].
      unfold progress. fold z. split; [exact U|]. split; [exact UU|]. split; [exact FM|]. split; [exact SK|].
      exists 1. split.
      * f_equal; [f_equal|symmetry; apply Z.leb_le; lia]. symmetry. apply firstn_all2. unfold z in *. lia.
      * right. split; [unfold next_pos; unfold sent_whole; cbn; lia|]. split; [exact R5|lia].
    + constructor; [|constructor]. rewrite app_length, (hbytes_length _ OKW). unfold z in *. lia.
  - set (s6 := sent_first o h m true s s5) in *.
    assert (S6 : sess_ok c (with_resend s6 false 2)).
    { unfold sess_ok, out_ok, s6, sent_first. rewrite EB. fold t. fold z. cbn [s_in s_out s_in_len s_in_frag s_out_len s_out_frag s_sent_pos s_send_len s_counter with_resend with_out].
      unfold same_out in KO. destruct KO as (K1 & K2 & K3 & _). rewrite K1, K2, K3. unfold sA, request_session. destruct SS as (I1 & I4 & I5 & I6 & I7 & I8).
      rewrite !app_length, skipn_length, (hbytes_length _ OKF).
      destruct (h_opnum h =? op_release); cbn [s_in s_in_len s_in_frag with_out with_release];
        (split; [exact I1|split; [unfold z in *; lia|split; [exact I5|split; [exact I6|split; [|lia]]]]]); (split; [lia|left; lia]). }
    unfold send_with_timeout in E2. rewrite !sess_at_set_same in E2 by lia.
    change (s_socket s6) with (s_socket s5) in E2.
    destruct (Z.ltb_spec (s_socket s5) 0) as [NS|NS].
    { exfalso. injection E2 as E2a _. rewrite <- E2a in SK. rewrite sess_at_set_same in SK by lia. change (s_socket s6) with (s_socket s5) in SK. lia. }
    change (s_counter s6) with 3 in E2. change (0 <? 3) with true in E2. cbn zeta iota in E2. change (3 - 1) with 2 in E2.
    rewrite (send_once_ok c o k _ S6) in E2. cbn [s_send_len s_out with_resend obind] in E2.
    assert (CU : current s6 = hbytes (first_header h true) ++ firstn 1360 t).
    { unfold current, s6, sent_first. rewrite EB. fold t. cbn [s_send_len s_out with_resend with_out]. change (Z.to_nat 1440) with (80 + 1360)%nat.
      rewrite firstn_app, (hbytes_length _ OKF), firstn_all2 by (rewrite (hbytes_length _ OKF); lia). f_equal.
      replace (80 + 1360 - 80)%nat with 1360%nat by lia. rewrite firstn_app.
      replace (1360 - length t)%nat with 0%nat by (unfold z in *; lia). rewrite firstn_O. apply app_nil_r. }
    fold (current s6) in E2. rewrite CU in E2. unfold send_buffer in E2. destruct (hbytes (first_header h true) ++ firstn 1360 t) as [|x y] eqn:EN.
    { pose proof (hbytes_length _ OKF) as LH. apply app_eq_nil in EN. destruct EN as [EN _]. rewrite EN in LH. discriminate. }
    change (s_socket (with_resend s6 false 2)) with (s_socket s5) in E2. destruct (Z.ltb_spec (s_socket s5) 0); [lia|].
    rewrite OS, OT in E2. cbn [orb negb andb] in E2.
    assert (E3 : st1 = set_sess (set_sess st2 k s6) k (with_resend (with_resend s6 false 2) true (s_counter (with_resend s6 false 2))) /\
      e2 = [Sent k (s_socket s5) (s_ip (with_resend s6 false 2)) (s_port (with_resend s6 false 2)) (x :: y)]) by (injection E2 as <- <-; auto).
    clear E2. destruct E3 as [-> ->]. cbn [sent_by]. rewrite Nat.eqb_refl. rewrite <- EN.
    rewrite set_sess_twice, sess_at_set_same in * by lia.
    split.
    + unfold reassemble. cbn [fold_left]. rewrite take_ok; try assumption; try reflexivity.
      2:{ rewrite firstn_length. unfold z in *. lia. }
      2:{ change (h_bodylen (first_header h true)) with 1360. rewrite firstn_length. unfold z in *. lia. }
      change (h_frag (first_header h true)) with 1. change (h_last (first_header h true)) with 0. cbn [Z.eqb orb negb Datatypes.app].
      assert (Z1 : z <> 1360). { intros Q. destruct MZ as [MZ|MZ]; [lia|]. apply MZ. rewrite Q. reflexivity. }
      unfold progress. fold z. split; [exact U|]. split; [exact UU|]. split; [exact FM|]. split; [exact SK|].
      exists 1. split.
      * f_equal. symmetry. apply Z.leb_gt. lia.
      * left. split; [|reflexivity]. unfold active. fold z.
        assert (NP2 : next_pos (with_resend (with_resend s6 false 2) true (s_counter (with_resend s6 false 2))) = 1440) by reflexivity.
        rewrite NP2. cbn [s_out_len s_out_frag s_out with_resend].
        assert (A1 : s_out_len s6 = 80 + z) by (unfold s6, sent_first; rewrite EB; reflexivity). rewrite A1.
        assert (A2 : s_out s6 = hbytes (first_header h true) ++ t ++ skipn (80 + length t) (s_out s)) by (unfold s6, sent_first; rewrite EB; reflexivity). rewrite A2.
        split; [lia|]. split; [lia|]. split; [lia|]. split; [lia|]. split; [reflexivity|]. split; [reflexivity|]. split; [lia|]. split.
        -- change (Z.to_nat 1440) with (80 + 1360)%nat. change (Z.to_nat (1440 - 80)) with 1360%nat.
           rewrite <- skipn_skipn. rewrite (skipn_app 80), (hbytes_length _ OKF), (skipn_all2 (hbytes _)) by (rewrite (hbytes_length _ OKF); lia).
           rewrite Nat.sub_diag, skipn_O, app_nil_l, skipn_app, firstn_app.
           replace (1360 - length t)%nat with 0%nat by (unfold z in *; lia). rewrite skipn_O.
           replace (Z.to_nat (80 + z - 1440) - length (skipn 1360 t))%nat with 0%nat by (rewrite skipn_length; unfold z in *; lia).
           rewrite firstn_O, app_nil_r. apply firstn_all2. rewrite skipn_length. unfold z in *. lia.
        -- exists (first_header h true), (firstn 1360 t). split; [rewrite <- EN in CU; exact CU|]. split; [exact OKF|]. split; [rewrite firstn_length; lia|reflexivity].
    + constructor; [|constructor]. rewrite app_length, (hbytes_length _ OKF), firstn_length. lia.
Qed.

Lemma progress_repeat : forall c o k st st1 e t u sq n a, cfg_ok c -> net_ok c st ->
  o_sent o = true -> 0 < s_counter (sess_at c st k) -> step c (IResend k, o) st = Ok (st1, e) ->
  progress t u sq n (sess_at c st k) a -> progress t u sq n (sess_at c st1 k) (fold_left (take u sq) (sent_by k e) a) /\
  Forall (fun f => (length f <= 1440)%nat) (sent_by k e).
Proof.
  intros c o k st st1 e t u sq n a C N OS CT E P. cbn [step] in E. destruct (s_resend (sess_at c st k)) eqn:RS.
  2:{ apply ok_inv in E. destruct E as [<- <-]. split; [exact P|constructor]. }
  pose proof P as (U & UU & FM & SK & m & -> & [[A ->]|[_ [A _]]]); [|congruence]. pose proof (used_lt c st k U) as L.
  pose proof (proj2 N k) as SS. set (s := sess_at c st k) in *. unfold send_with_timeout in E. fold s in E. cbn zeta in E.
  destruct (Z.ltb_spec (s_socket s) 0); [lia|]. destruct (Z.ltb_spec 0 (s_counter s)); [|lia].
  assert (S1 : sess_ok c (with_resend s false (s_counter s - 1))).
  { unfold sess_ok, out_ok in *. cbn [s_in s_out s_in_len s_in_frag s_out_len s_out_frag s_sent_pos s_send_len s_counter with_resend] in *.
    destruct SS as (I1 & I2 & I3 & I4 & I5 & I6). split; [exact I1|split; [exact I2|split; [exact I3|split; [exact I4|split; [exact I5|lia]]]]]. }
  rewrite (send_once_ok c o k _ S1) in E. cbn [s_send_len s_out with_resend obind] in E. fold (current s) in E.
  pose proof A as (A0 & A1 & A2 & A3 & A4 & A5 & A6 & A7 & h & b & CU & OH & LB & FN).
  pose proof (hbytes_length h OH) as LH.
  rewrite send_buffer_ok in E by (try assumption; rewrite CU; intros EN; apply app_eq_nil in EN; destruct EN as [EN _]; rewrite EN in LH; discriminate).
  apply ok_inv in E. destruct E as [<- <-]. rewrite sess_at_set_same by exact L. cbn [sent_by]. rewrite Nat.eqb_refl. cbn [fold_left].
  rewrite CU, take_again by (try assumption; try lia; right; lia). split.
  - unfold progress. split; [exact U|]. split; [exact UU|]. split; [exact FM|]. split; [exact SK|]. exists (n + 1). split; [reflexivity|].
    left. split; [|reflexivity]. exact A.
  - constructor; [|constructor]. rewrite app_length, LH. lia.
Qed.

Definition fits (f : list Z) : Prop := (length f <= 1440)%nat.
Lemma send_once_sent : forall c o k s ok e j, sess_ok c s -> send_once o k s = Ok (ok, e) -> sent_by j e = [] \/ sent_by j e = [current s].
Proof.
  intros c o k s ok e j S1 E. rewrite (send_once_ok c o k s S1) in E. injection E as E. unfold send_buffer in E. fold (current s) in E.
  destruct (current s) as [|x y]; [injection E as <- <-; auto|]. destruct (_ || _); injection E as <- <-; [auto|]. cbn [sent_by]. destruct (Nat.eqb k j); auto.
Qed.
Lemma next_fragment_fits : forall c o k h r st st1 e, cfg_ok c -> net_ok c st -> hdr_in h -> (k < length (n_sess st))%nat ->
  next_fragment c o k h r st = Ok (st1, e) -> Forall fits (sent_by k e).
Proof.
  intros c o k h r st st1 e C N H L E. pose proof (proj2 N k) as S1. set (s := sess_at c st k) in *.
  destruct (Z.lt_ge_cases (next_pos s) (s_out_len s)) as [M|M].
  - pose proof (next_session_ok c h r s C H S1 M) as SN. pose proof (next_sent c h r s C H S1 M) as CN.
    rewrite next_fragment_more in E by assumption. fold s in E. unfold send_with_timeout in E. rewrite !sess_at_set_same in E by exact L.
    destruct (s_socket _ <? 0); [apply ok_inv in E; destruct E as [_ <-]; constructor|].
    change (s_counter (next_session h r s)) with 3 in E. change (0 <? 3) with true in E. cbn zeta iota in E.
    destruct (send_once o k _) as [[ok e0]| |] eqn:E0; try discriminate. cbn [obind] in E. apply ok_inv in E. destruct E as [_ <-].
    assert (SM : sess_ok c (with_resend (next_session h r s) false (3 - 1))).
    { unfold sess_ok, out_ok in *. cbn [s_in s_out s_in_len s_in_frag s_out_len s_out_frag s_sent_pos s_send_len s_counter with_resend]. destruct SN as (B1 & B2 & B3 & B4 & B5 & B6).
      split; [exact B1|]. split; [exact B2|]. split; [exact B3|]. split; [exact B4|]. split; [exact B5|]. lia. }
    destruct (send_once_sent c o k _ ok e0 k SM E0) as [->| ->]; [constructor|]. constructor; [|constructor].
    unfold fits, current. cbn [s_send_len s_out with_resend]. fold (current (next_session h r s)). rewrite CN.
    pose proof S1 as (I1 & I2 & I3 & I4 & I5 & I6). destruct (more_facts c s C I5 M) as (P & F & LE & SE & NS & NP & LA & LB). unfold cfg_ok in C.
    assert (OL : rpch_ok (next_header h s (next_be s r) (s_out_frag s + 1) (next_last s) (next_size s))).
    { apply next_header_ok; [exact H|apply next_last_flag|lia|lia]. }
    unfold next_bytes. rewrite app_length, (hbytes_length _ OL), firstn_length. lia.
  - unfold next_fragment in E. cbn zeta in E. destruct (next_pos_model c s C (proj1 (proj2 (proj2 (proj2 (proj2 S1)))))) as (EP & _). fold s in E. rewrite EP in E.
    destruct (Z.ltb_spec (next_pos s) (s_out_len s)); [lia|]. apply ok_inv in E. destruct E as [_ <-]. constructor.
Qed.

Lemma progress_rounds : forall c k u sq t n st fs st2, cfg_ok c -> Z.of_nat (length t) < 65456 -> rounds c k u sq n st fs st2 ->
  net_ok c st -> forall n0 a, 0 <= n0 -> progress t u sq n0 (sess_at c st k) a ->
  progress t u sq (n0 + Z.of_nat n) (sess_at c st2 k) (fold_left (take u sq) fs a) /\ Forall fits fs.
Proof.
  intros c k u sq t n st fs st2 C TL R. induction R as [st|n x st st1 e fs st2 V E SE NE R IH|n o st st1 e fs st2 V CT OS E R IH|n x o st st1 e fs st2 V A OS OT UQ E R IH]; intros N n0 a N0 P.
  - cbn [fold_left]. rewrite Z.add_0_r. split; [exact P|constructor].
  - apply IH; [exact (step_net_ok _ _ _ _ _ C N V E)|exact N0|]. rewrite SE. exact P.
  - rewrite fold_left_app. destruct (progress_repeat c o k st st1 e t u sq n0 a C N OS CT E P) as [P2 F2].
    destruct (IH (step_net_ok _ _ _ _ _ C N V E) n0 _ N0 P2) as [P3 F3]. split; [exact P3|]. apply Forall_app. auto.
  - rewrite fold_left_app. replace (n0 + Z.of_nat (S n)) with (n0 + 1 + Z.of_nat n) by lia.
    destruct x as [ip port frame len old| | | |]; try contradiction. destruct A as (L0 & h & r & G & T & F & B & HU & HS).
    pose proof P as (U & UU & _). destruct V as [V1 (V2 & V3 & V4)].
    pose proof (locate_only c st k u U UU UQ) as LC. rewrite <- HU in LC.
    pose proof (ack_step c o ip port frame len old st st1 e k h r C N L0 G T F B LC E) as E2.
    destruct (parse_ok frame len old V2 ltac:(lia) V4) as (h' & r' & G' & H & _). rewrite G in G'. apply ok_inv in G'. destruct G' as [<- <-].
    assert (V : input_ok (IDatagram ip port frame len old, o)) by (split; [exact V1|cbn; auto]).
    pose proof (progress_ack c o ip port k h r st st1 e t u sq n0 a C N H HU HS OS OT E2 TL N0 P) as P2.
    destruct (IH (step_net_ok _ _ _ _ _ C N V E) (n0 + 1) _ ltac:(lia) P2) as [P3 F3]. split; [exact P3|]. apply Forall_app. split; [|exact F3].
    pose proof (used_lt c st k U) as L.
    refine (next_fragment_fits c o k h r _ st1 e C _ H _ E2); [|rewrite length_set_sess; exact L].
    apply set_ok; [exact N|]. exact (begin_ok c ip port h _ C (proj2 N k)).
Qed.

(** * Theorem *)

(** A request of the controller in one datagram, whose answer [o_body] has room in what
    the controller allows for it. *)
Definition one_request (c : cfg) (x : input * hres) (h : rpch) : Prop :=
  match fst x with
  | IDatagram ip port frame len old =>
    0 < len /\ exists r nd r1, get_dce_rpc_header old old old (mkRd (Some frame) len false POk 0) = Ok (h, r) /\
      h_ptype h = 0 /\ h_frag h = 0 /\ h_bodylen h <= 1384 /\ h_interface h = uuid_io_device /\ get_ndr r = Ok (nd, r1) /\
      80 + Z.of_nat (length (o_body (snd x))) <= r_pos r1 + n_argsmax nd < 4294967296 /\ 80 + Z.of_nat (length (o_body (snd x))) <= c_buf c
  | _ => False
  end.
(** The session belongs to the client with this activity UUID. *)
Definition client_session (s : sess) (u : uuid) : Prop :=
  s_used s = true /\ s_uuid s = u /\ s_from_me s = false /\ 0 <= s_socket s.

Theorem C92_complete_partial : forall c l st x st1 e1 k h n fs st2, cfg_ok c -> reached c l st -> input_ok x -> one_request c x h ->
  (forall i j, s_used (sess_at c st i) = true -> s_used (sess_at c st j) = true -> s_uuid (sess_at c st i) = s_uuid (sess_at c st j) -> i = j) ->
  o_sent (snd x) = true -> o_timer (snd x) = true ->
  step c x st = Ok (st1, e1) -> client_session (sess_at c st1 k) (h_activity h) ->
  let body := o_body (snd x) in let z := Z.of_nat (length body) in
  z < 1360 \/ z mod 1360 <> 0 ->
  rounds c k (h_activity h) (h_seq h) n st1 fs st2 ->
  let fragments := sent_by k e1 ++ fs in
  (exists m, reassemble (h_activity h) (h_seq h) fragments =
     (m, firstn (Z.to_nat (1360 * (Z.of_nat n + 1))) body, z <=? 1360 * (Z.of_nat n + 1))) /\
  Forall (fun f => (length f <= 1440)%nat) fragments.
Proof.
  intros c l st [x o] st1 e1 k h n fs st2 C R V Q UQ OS OT E CS body z MZ RD fragments. cbn [fst snd] in *.
  pose proof (reached_ok c l st C R) as N. unfold one_request in Q. cbn [fst snd] in Q.
  destruct x as [ip port frame len old| | | |]; try contradiction. destruct Q as (L0 & r & nd & r1 & G & T & F & B & HI & GN & LM & LB).
  destruct CS as (U & UU & FM & SK). pose proof V as [V1 (V2 & V3 & V4)].
  destruct (parse_ok frame len old V2 ltac:(lia) V4) as (h' & r' & G' & H & RO & _). rewrite G in G'. apply ok_inv in G'. destruct G' as [<- <-].
  assert (SF : exists fresh stA, session_for c o ip port h st = Some (k, fresh, stA)).
  { pose proof E as E0. cbn [step] in E0. unfold datagram in E0. destruct (Z.leb_spec len 0); [lia|]. rewrite G in E0. cbn [obind] in E0.
    pose proof (packet_others _ _ _ _ _ _ _ _ _ _ C N E0) as PO.
    destruct (session_for c o ip port h st) as [[[k' fresh] stA]|] eqn:SF.
    - destruct (Nat.eq_dec k k') as [->|KK]; [eauto|]. exfalso.
      destruct (session_for_ok _ _ _ _ _ _ _ _ _ C N SF) as (_ & _ & _ & _ & X & Y).
      destruct (proj2 PO k KK) as [P|[P _]]; [|rewrite P in U; discriminate]. rewrite P in U, UU. destruct fresh.
      + destruct (Y eq_refl) as (_ & Y2 & _). specialize (Y2 _ (used_in c st k U) U). rewrite UU in Y2. rewrite (proj2 (uuid_eqb_eq (h_activity h) (h_activity h)) eq_refl) in Y2. discriminate.
      + destruct (X eq_refl) as (_ & X2 & X3). apply uuid_eqb_eq in X3. apply KK. apply UQ; congruence.
    - exfalso. destruct PO as [-> _]. (* no session: the table is full, and the client has none *)
      unfold session_for in SF. destruct (locate (n_sess st) 0 (h_activity h)) as [j|] eqn:LC; [discriminate|].
      pose proof (locate_none _ _ _ LC _ (used_in c st k U) U) as X. rewrite UU in X. rewrite (proj2 (uuid_eqb_eq (h_activity h) (h_activity h)) eq_refl) in X. discriminate. }
  destruct SF as (fresh & stA & SF).
  pose proof (request_step c o ip port frame len old st st1 e1 k h r L0 G T F B E U C N fresh stA SF) as ER.
  destruct (session_for_ok _ _ _ _ _ _ _ _ _ C N SF) as (NA & LA & _).
  pose proof (started_ok c ip port h _ C (proj2 NA k)) as SS. pose proof (started_uuid ip port h (sess_at c stA k)) as SU. pose proof (started_resend ip port h (sess_at c stA k)) as SR.
  set (sa := started ip port h (sess_at c stA k)) in *. clearbody sa.
  destruct (progress_first c o k h r _ st1 e1 nd r1 sa C (set_ok _ _ k _ NA SS) H RO
    ltac:(rewrite length_set_sess; exact LA) ltac:(rewrite sess_at_set_same by exact LA; reflexivity) SU HI GN LM LB OS OT SR ER U SK FM MZ) as [P1 F1].
  unfold cfg_ok in C.
  destruct (progress_rounds c k (h_activity h) (h_seq h) (o_body o) n st1 fs st2 C ltac:(lia) RD (step_net_ok _ _ _ _ _ C N V E) 0 _ ltac:(lia) P1) as [P2 F2].
  split.
  - destruct P2 as (_ & _ & _ & _ & m & P2 & _). exists m. unfold reassemble, fragments in *. rewrite fold_left_app. rewrite P2. rewrite Z.add_0_l. reflexivity.
  - apply Forall_app. split; [exact F1|exact F2].
Qed.
Print Assumptions C92_complete_partial.

(** With enough acknowledges the controller has the response, and knows it. *)
Corollary C92_all_partial : forall c l st x st1 e1 k h n fs st2, cfg_ok c -> reached c l st -> input_ok x -> one_request c x h ->
  (forall i j, s_used (sess_at c st i) = true -> s_used (sess_at c st j) = true -> s_uuid (sess_at c st i) = s_uuid (sess_at c st j) -> i = j) ->
  o_sent (snd x) = true -> o_timer (snd x) = true ->
  step c x st = Ok (st1, e1) -> client_session (sess_at c st1 k) (h_activity h) ->
  let body := o_body (snd x) in
  Z.of_nat (length body) < 1360 \/ Z.of_nat (length body) mod 1360 <> 0 ->
  rounds c k (h_activity h) (h_seq h) n st1 fs st2 ->
  (exists m, reassemble (h_activity h) (h_seq h) (sent_by k e1 ++ fs) = (m, body, true)) <-> Z.of_nat (length body) <= 1360 * (Z.of_nat n + 1).
Proof.
  intros c l st x st1 e1 k h n fs st2 C R V Q UQ OS OT E CS body MZ RD.
  destruct (C92_complete_partial c l st x st1 e1 k h n fs st2 C R V Q UQ OS OT E CS MZ RD) as [(m & P) _]. fold body in P. rewrite P. split.
  - intros (m' & M). injection M as _ _ M. apply Z.leb_le. exact M.
  - intros L. exists m. rewrite (proj2 (Z.leb_le _ _) L), firstn_all2 by lia. reflexivity.
Qed.

(** * Concrete case: a response of 3008 bytes, one repetition, a datagram of another
    client in between, two acknowledges *)
Definition pattern (n : nat) : list Z := concat (repeat [1; 2; 3; 4; 5; 6; 7; 8; 9; 10; 11; 12; 13; 14; 15; 16] n).
Definition long_body : list Z := pattern 188.
Definition answer_with (b : list Z) : hres := mkHres b ENone true false false false (client 99) true true.
Definition opened : list (input * hres) := [(send_to 1 50001 0 0 0 0 1 0 uuid_io_device ndr_bytes, with_effect (EConnect true))].
Definition question (b : list Z) : input * hres := (send_to 1 50001 0 0 0 0 2 2 uuid_io_device ndr_bytes, answer_with b).
Definition ack : input * hres := (send_to 1 50001 9 0 0 0 2 2 uuid_io_device [], plain).
Definition foreign : input * hres := (send_to 2 50002 1 0 0 0 2 0 uuid_io_device [], plain).

Definition only (c : cfg) (st : net) (u : uuid) (k : nat) : bool :=
  forallb (fun j => negb (s_used (sess_at c st j)) || negb (uuid_eqb (s_uuid (sess_at c st j)) u) || Nat.eqb j k) (seq 0 (length (n_sess st))).
Lemma only_ok : forall c st u k, only c st u k = true -> forall j, s_used (sess_at c st j) = true -> s_uuid (sess_at c st j) = u -> j = k.
Proof.
  intros c st u k H j U E. unfold only in H. rewrite forallb_forall in H. specialize (H j). rewrite in_seq in H. pose proof (used_lt c st j U).
  specialize (H ltac:(lia)). rewrite U, E, (proj2 (uuid_eqb_eq u u) eq_refl) in H. cbn in H. apply Nat.eqb_eq. exact H.
Qed.
Definition same_sess (a b : sess) : bool :=
  Bool.eqb (s_used a) (s_used b) && Bool.eqb (s_release a) (s_release b) && Bool.eqb (s_kill a) (s_kill b) && (s_socket a =? s_socket b) &&
  match s_ar a, s_ar b with Some i, Some j => Nat.eqb i j | None, None => true | _, _ => false end && Bool.eqb (s_from_me a) (s_from_me b) && uuid_eqb (s_uuid a) (s_uuid b) &&
  (s_ip a =? s_ip b) && (s_port a =? s_port b) && same_bytes (s_in a) (s_in b) && (s_in_len a =? s_in_len b) && (s_in_frag a =? s_in_frag b) &&
  same_bytes (s_out a) (s_out b) && (s_out_len a =? s_out_len b) && (s_sent_pos a =? s_sent_pos b) && (s_send_len a =? s_send_len b) && (s_out_frag a =? s_out_frag b) &&
  Bool.eqb (s_be a) (s_be b) && Bool.eqb (s_err a) (s_err b) && (s_dseq a =? s_dseq b) && (s_epmseq a =? s_epmseq b) && Bool.eqb (s_epmtimer a) (s_epmtimer b) &&
  Bool.eqb (s_resend a) (s_resend b) && (s_counter a =? s_counter b).
Lemma same_sess_eq : forall a b, same_sess a b = true -> a = b.
Proof.
  intros [a1 a2 a3 a4 a5 a6 a7 a8 a9 a10 a11 a12 a13 a14 a15 a16 a17 a18 a19 a20 a21 a22 a23 a24] [b1 b2 b3 b4 b5 b6 b7 b8 b9 b10 b11 b12 b13 b14 b15 b16 b17 b18 b19 b20 b21 b22 b23 b24] H.
  unfold same_sess in H. cbn [s_used s_release s_kill s_socket s_ar s_from_me s_uuid s_ip s_port s_in s_in_len s_in_frag s_out s_out_len s_sent_pos s_send_len s_out_frag s_be s_err s_dseq s_epmseq s_epmtimer s_resend s_counter] in H.
  repeat (apply andb_prop in H; destruct H as [H ?]).
  repeat match goal with X : Bool.eqb _ _ = true |- _ => apply eqb_prop in X | X : (_ =? _) = true |- _ => apply Z.eqb_eq in X
    | X : uuid_eqb _ _ = true |- _ => apply uuid_eqb_eq in X | X : same_bytes _ _ = true |- _ => apply same_bytes_eq in X end.
  assert (a5 = b5) by (destruct a5, b5; try discriminate; try reflexivity; f_equal; apply Nat.eqb_eq; assumption).
  subst. reflexivity.
Qed.
Definition client_check (s : sess) (u : uuid) : bool := s_used s && uuid_eqb (s_uuid s) u && negb (s_from_me s) && (0 <=? s_socket s).
Lemma client_check_ok : forall s u, client_check s u = true -> client_session s u.
Proof.
  intros s u H. unfold client_check in H. rewrite !andb_true_iff, negb_true_iff, Z.leb_le in H. destruct H as (((H1 & H2) & H3) & H4).
  apply uuid_eqb_eq in H2. split; [exact H1|]. split; [exact H2|]. split; [exact H3|exact H4].
Qed.
Definition result_check (x : Z * list Z * bool) (n : Z) (b : list Z) (done : bool) : bool := (fst (fst x) =? n) && same_bytes (snd (fst x)) b && Bool.eqb (snd x) done.
Lemma result_check_ok : forall x n b done, result_check x n b done = true -> x = (n, b, done).
Proof.
  intros [[m d] v] n b done H. unfold result_check in H. cbn [fst snd] in H. rewrite !andb_true_iff, Z.eqb_eq in H. destruct H as ((-> & H2) & H3).
  rewrite (same_bytes_eq _ _ H2), (eqb_prop _ _ H3). reflexivity.
Qed.

(** Facts about the datagrams themselves. *)
Definition asked : rpch := header 0 0 0 0 2 2 20 uuid_io_device (client 1).
Lemma question_one : forall b, Z.of_nat (length b) <= 4000 -> one_request small (question b) asked.
Proof.
  intros b L. unfold one_request, question, send_to. cbn [fst snd o_body answer_with]. split; [vm_compute; reflexivity|].
  eexists. exists (mkNdr 65535 0 0 0 0). eexists. split; [vm_compute; reflexivity|]. split; [reflexivity|]. split; [reflexivity|]. split; [vm_compute; discriminate|].
  split; [reflexivity|]. split; [vm_compute; reflexivity|]. cbn [r_pos n_argsmax c_buf small]. split; lia.
Qed.
Lemma ack_is_ack : is_ack (fst ack) (client 1) 2.
Proof.
  unfold is_ack, ack, send_to. cbn [fst]. split; [vm_compute; reflexivity|]. exists (header 9 0 0 0 2 2 0 uuid_io_device (client 1)). eexists.
  split; [vm_compute; reflexivity|]. split; [reflexivity|]. split; [reflexivity|]. split; [vm_compute; discriminate|]. split; reflexivity.
Qed.

Example C92_example : exists st st1 e1 fs st2, reached small opened st /\ input_ok (question long_body) /\ one_request small (question long_body) asked /\
  step small (question long_body) st = Ok (st1, e1) /\ client_session (sess_at small st1 0) (client 1) /\
  rounds small 0 (client 1) 2 2 st1 fs st2 /\ length (sent_by 0 e1 ++ fs) = 4%nat /\ reassemble (client 1) 2 (sent_by 0 e1 ++ fs) = (3, long_body, true).
Proof.
  destruct (checked_ok opened (fun st _ => stepped (question long_body) st (fun st1 e1 => client_check (sess_at small st1 0) (client 1) && ((0 <? s_counter (sess_at small st1 0)) &&
    stepped (IResend 0, plain) st1 (fun st2 e2 => only small st2 (client 1) 0 &&
    stepped ack st2 (fun st3 e3 => stepped foreign st3 (fun st4 e4 => same_sess (sess_at small st4 0) (sess_at small st3 0) && (only small st4 (client 1) 0 && (Nat.eqb (length (sent_by 0 e4)) 0 &&
    stepped ack st4 (fun st5 e5 => let fs := sent_by 0 e2 ++ sent_by 0 e3 ++ sent_by 0 e5 ++ [] in
      Nat.eqb (length (sent_by 0 e1 ++ fs)) 4 && result_check (reassemble (client 1) 2 (sent_by 0 e1 ++ fs)) 3 long_body true))))))))))
    as (st & e & RC & R & K); [vm_compute; reflexivity|intros x [<-|[]]; reflexivity|].
  apply stepped_ok in K; [|reflexivity]. destruct K as (st1 & e1 & V1 & E1 & K). apply andb_prop in K. destruct K as [A1 K]. apply andb_prop in K. destruct K as [A2 K].
  apply stepped_ok in K; [|reflexivity]. destruct K as (st2 & e2 & V2 & E2 & K). apply andb_prop in K. destruct K as [A3 K].
  apply stepped_ok in K; [|reflexivity]. destruct K as (st3 & e3 & V3 & E3 & K).
  apply stepped_ok in K; [|reflexivity]. destruct K as (st4 & e4 & V4 & E4 & K). apply andb_prop in K. destruct K as [A4 K]. apply andb_prop in K. destruct K as [A5 K]. apply andb_prop in K. destruct K as [A6 K].
  apply stepped_ok in K; [|reflexivity]. destruct K as (st5 & e5 & V5 & E5 & K). cbn zeta in K. apply andb_prop in K. destruct K as [A7 A8].
  exists st, st1, e1, (sent_by 0 e2 ++ sent_by 0 e3 ++ sent_by 0 e5 ++ []), st5.
  split; [exact RC|]. split; [exact V1|]. split; [apply question_one; vm_compute; discriminate|]. split; [exact E1|]. split; [apply client_check_ok; exact A1|].
  split.
  { apply rounds_repeat with (o := plain) (st1 := st2); [exact V2|apply Z.ltb_lt; exact A2|reflexivity|exact E2|].
    apply rounds_ack with (x := fst ack) (o := plain) (st1 := st3); [exact V3|exact ack_is_ack|reflexivity|reflexivity|apply only_ok; exact A3|exact E3|].
    apply rounds_other with (x := foreign) (st1 := st4) (e := e4); [exact V4|exact E4|apply same_sess_eq; exact A4|apply length_zero_iff_nil, Nat.eqb_eq; exact A6|].
    apply rounds_ack with (x := fst ack) (o := plain) (st1 := st5); [exact V5|exact ack_is_ack|reflexivity|reflexivity|apply only_ok; exact A5|exact E5|apply rounds_end]. }
  split; [apply Nat.eqb_eq; exact A7|apply result_check_ok; exact A8].
Qed.

(** Finding: a response whose length is a multiple of 1360 is never marked as complete;
    after the last fragment an acknowledge is answered by nothing. *)
Theorem C92_multiple_refuted : exists c l st x st1 e1 k h n fs st2, cfg_ok c /\ reached c l st /\ input_ok x /\ one_request c x h /\
  step c x st = Ok (st1, e1) /\ client_session (sess_at c st1 k) (h_activity h) /\
  rounds c k (h_activity h) (h_seq h) n st1 fs st2 /\ Z.of_nat (length (o_body (snd x))) = 1360 * (Z.of_nat n - 1) /\
  reassemble (h_activity h) (h_seq h) (sent_by k e1 ++ fs) = (2, o_body (snd x), false).
Proof.
  set (b := pattern 170).
  assert (LB : Z.of_nat (length b) = 2720) by (vm_compute; reflexivity).
  destruct (checked_ok opened (fun st _ => stepped (question b) st (fun st1 e1 => client_check (sess_at small st1 0) (client 1) && (only small st1 (client 1) 0 &&
    stepped ack st1 (fun st2 e2 => only small st2 (client 1) 0 && stepped ack st2 (fun st3 e3 => only small st3 (client 1) 0 && stepped ack st3 (fun st4 e4 =>
      result_check (reassemble (client 1) 2 (sent_by 0 e1 ++ sent_by 0 e2 ++ sent_by 0 e3 ++ sent_by 0 e4 ++ [])) 2 b false)))))))
    as (st & e & RC & R & K); [vm_compute; reflexivity|intros x [<-|[]]; reflexivity|]. clearbody b.
  apply stepped_ok in K; [|reflexivity]. destruct K as (st1 & e1 & V1 & E1 & K). apply andb_prop in K. destruct K as [A1 K]. apply andb_prop in K. destruct K as [A2 K].
  apply stepped_ok in K; [|reflexivity]. destruct K as (st2 & e2 & V2 & E2 & K). apply andb_prop in K. destruct K as [A3 K].
  apply stepped_ok in K; [|reflexivity]. destruct K as (st3 & e3 & V3 & E3 & K). apply andb_prop in K. destruct K as [A4 K].
  apply stepped_ok in K; [|reflexivity]. destruct K as (st4 & e4 & V4 & E4 & K).
  exists small, opened, st, (question b), st1, e1, 0%nat, asked, 3%nat, (sent_by 0 e2 ++ sent_by 0 e3 ++ sent_by 0 e4 ++ []), st4.
  split; [unfold cfg_ok; cbn; lia|]. split; [exact RC|]. split; [exact V1|]. split; [apply question_one; lia|]. split; [exact E1|]. split; [apply client_check_ok; exact A1|].
  split.
  { apply rounds_ack with (x := fst ack) (o := plain) (st1 := st2); [exact V2|exact ack_is_ack|reflexivity|reflexivity|apply only_ok; exact A2|exact E2|].
    apply rounds_ack with (x := fst ack) (o := plain) (st1 := st3); [exact V3|exact ack_is_ack|reflexivity|reflexivity|apply only_ok; exact A3|exact E3|].
    apply rounds_ack with (x := fst ack) (o := plain) (st1 := st4); [exact V4|exact ack_is_ack|reflexivity|reflexivity|apply only_ok; exact A4|exact E4|]. apply rounds_end. }
  split; [cbn [question snd answer_with o_body]; rewrite LB; reflexivity|apply result_check_ok; exact K].
Qed.
