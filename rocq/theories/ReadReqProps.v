(** C129: read requests and their responses. *)
From Coq Require Import List ZArith Arith Bool Lia.
From Verif Require Import Base CpmModel CpmProps PpmModel PpmProps BlockModel BlockReadLemmas BlockWriteProps AlarmParse ConnRspModel ConnRspProps ControlModel ControlProps ReadReqModel.
From Verif Require RecordModel.
Import ListNotations.
Local Open Scope Z_scope.

(** * Specification *)

Definition uuid_at (b : list Z) (i : Z) : uuid := mkUuid (at32 b i) (at16 b (i + 4)) (at16 b (i + 6)) (firstn 8 (skipn (Z.to_nat (i + 8)) b)).
(** The read request block that starts at [i] (IEC 61158-6-10): type, length and version, sequence number, UUID
    of the connection, API, slot, subslot, padding, index, length, UUID of the target, padding. *)
Definition request_at (b : list Z) (i : Z) : rwreq * uuid :=
  (mkRwreq (at16 b (i + 6)) (uuid_at b (i + 8)) (at32 b (i + 24)) (at16 b (i + 28)) (at16 b (i + 30)) (at16 b (i + 34)) (at32 b (i + 36)),
   uuid_at b (i + 40)).
(** Bytes [i] to the end are one read request, with a length that is not too large. *)
Definition one_read (b : list Z) (i : Z) (q : rwreq) (t : uuid) : Prop :=
  Z.of_nat (length b) = i + 64 /\ at16 b i = 9 /\ at16 b (i + 2) <= 60 /\ (q, t) = request_at b i.

(** The connection a read is for.  None: none; no result: it is refused. *)
Definition reads_for (find : uuid -> option Z) (api : Z -> bool) (implicit : bool) (q : rwreq) (t : uuid) (ar : option Z) : Prop :=
  (q_api q = 0 \/ api (q_api q) = true) /\
  if implicit then find (q_uuid q) = None /\ ar = find t
  else RecordModel.uuid_zero (q_uuid q) = false /\ ar = find (q_uuid q).

(** What the controller reads first. *)
Definition get_front : reader (pnio * ndr) :=
  rdo s <- get_pnio_status; rdo n <- get_u32; rdo m <- get_u32; rdo o <- get_u32; rdo c <- get_u32; rret (s, mkNdr n m o c).

(** * The request *)

Section Req.
Variable b : list Z.
Hypothesis bytes : Forall byte b.
Hypothesis small : Z.of_nat (length b) < 65536.
Let len := Z.of_nat (length b).

Lemma ex_skip : forall n, exactly b (Z.of_nat (S n)) (fun _ => tt) (skip_bytes (S n)).
Proof.
  induction n as [|n IH].
  - cbn [skip_bytes]. eapply ex_eq; [eapply ex_bind; cycle 2; [apply ex_byte; assumption|intros ?; apply ex_ret|lia|lia]|reflexivity|reflexivity].
  - change (skip_bytes (S (S n))) with (rdo _ <- get_byte; skip_bytes (S n)).
    eapply ex_eq; [eapply ex_bind; cycle 2; [apply ex_byte; assumption|intros ?; exact IH|lia|lia]|lia|reflexivity].
Qed.
Lemma ex_skip2 : exactly b 2 (fun _ => tt) (skip_bytes 2). Proof. exact (ex_skip 1). Qed.
Lemma ex_skip8 : exactly b 8 (fun _ => tt) (skip_bytes 8). Proof. exact (ex_skip 7). Qed.
Lemma ex_uuid' : exactly b 16 (uuid_at b) (get_uuid (repeat 0 8)). Proof. exact (ex_uuid b bytes small). Qed.

Ltac exs := first [apply ex_ret | eapply ex_bind; cycle 2; [first [apply ex_u16; assumption|apply ex_u32; assumption|apply ex_uuid'|apply ex_skip2|apply ex_skip8]|intros ?; exs|lia|lia]].
Ltac norm := repeat match goal with |- context [?i + ?a + ?c] =>
  match a with Zpos _ => match c with Zpos _ =>
    let v := eval vm_compute in (a + c) in replace (i + a + c) with (i + v) by lia end end end.

Lemma ex_request : exactly b 58 (fun i => request_at b (i - 6)) (get_read_request (repeat 0 8) (repeat 0 8)).
Proof.
  unfold get_read_request. eapply ex_eq; [exs|reflexivity|]. intros i _ _. cbv beta. norm. unfold request_at.
  replace (i - 6 + 6) with i by lia. replace (i - 6 + 8) with (i + 2) by lia. replace (i - 6 + 24) with (i + 18) by lia. replace (i - 6 + 28) with (i + 22) by lia.
  replace (i - 6 + 30) with (i + 24) by lia. replace (i - 6 + 34) with (i + 28) by lia. replace (i - 6 + 36) with (i + 30) by lia. replace (i - 6 + 40) with (i + 34) by lia. reflexivity.
Qed.

Lemma interpret_exact : forall st args i, 0 <= i <= len ->
  exists x, read_interpret st args (rdr b i) = Ok x /\ (forall q t, x = inl (q, t) <-> one_read b i q t /\ args = 64).
Proof.
  intros st args i I. unfold read_interpret. cbn [rdr r_pos r_len r_res is_ok]. fold len. rewrite andb_true_r.
  destruct (Z.leb_spec (i + 6) len) as [H|H].
  2:{ eexists. split; [reflexivity|]. intros q t. split; [discriminate|]. intros ((O1 & _) & _). fold len in O1. lia. }
  destruct (ex_header b bytes small) as (H1 & _). fold (rdr b i). rewrite H1 by (fold len; lia). cbn [obind header_at b_type b_length rdr r_pos r_len r_res is_ok]. fold len. rewrite andb_true_r.
  destruct (Z.leb_spec (i + 6 + at16 b (i + 2) + 4 - 6) len) as [G|G].
  2:{ eexists. split; [reflexivity|]. intros q t. split; [discriminate|]. intros ((O1 & _ & O2 & _) & _). fold len in O1. lia. }
  destruct (Z.eqb_spec (at16 b i) 9) as [T|T].
  2:{ eexists. split; [reflexivity|]. intros q t. split; [discriminate|]. intros ((_ & O2 & _) & _). contradiction. }
  fold (rdr b (i + 6)).
  destruct (failed_fixed _ b 58 _ _ (i + 6) ex_request ltac:(lia) ltac:(lia)) as [(J1 & J2)|(J1 & v & r & J2 & J3)]; rewrite J2; cbn [obind].
  2:{ destruct J3 as (_ & J3). replace (is_ok (r_res r)) with false by (destruct (r_res r); [congruence|reflexivity..]).
      eexists. split; [reflexivity|]. intros q t. split; [discriminate|]. intros ((O1 & _) & _). fold len in O1, J1. lia. }
  fold len in J1. cbn [rdr r_pos r_len r_res is_ok]. fold len. replace (i + 6 - 6) with i by lia.
  destruct (Z.eqb_spec (i + 6 + 58) len) as [L|L]; cbn [negb].
  2:{ eexists. split; [reflexivity|]. intros q t. split; [discriminate|]. intros ((O1 & _) & _). fold len in O1. lia. }
  rewrite u32_id by lia. replace (i + 6 + 58 - i) with 64 by lia. destruct (Z.eqb_spec 64 args) as [A|A]; cbn [negb].
  2:{ eexists. split; [reflexivity|]. intros q t. split; [discriminate|]. intros (_ & O). congruence. }
  eexists. split; [reflexivity|]. intros q t. split.
  - intros [= E]. split; [|congruence]. repeat split; try lia. unfold request_at. congruence.
  - intros ((_ & _ & _ & ->) & _). reflexivity.
Qed.
End Req.

Lemma read_ar_exact : forall find api implicit q t ar, RecordModel.read_ar find api implicit q t = inl ar <-> reads_for find api implicit q t ar.
Proof.
  intros find api implicit q t ar. unfold RecordModel.read_ar, reads_for.
  destruct implicit; cbn [negb]; rewrite ?andb_false_r, ?andb_true_r.
  - destruct (find (q_uuid q)) as [n|]; [split; [discriminate|intros (_ & ? & _); discriminate]|].
    destruct (Z.eqb_spec (q_api q) 0) as [Z0|Z0]; cbn [negb andb].
    + split; [intros [= <-]; auto|intros (_ & _ & ->); reflexivity].
    + destruct (api (q_api q)) eqn:E; cbn [negb]; [split; [intros [= <-]; auto|intros (_ & _ & ->); reflexivity]|].
      split; [discriminate|]. intros ([?|?] & _); congruence.
  - destruct (RecordModel.uuid_zero (q_uuid q)); [split; [discriminate|intros (_ & ? & _); discriminate]|].
    destruct (Z.eqb_spec (q_api q) 0) as [Z0|Z0]; cbn [negb andb].
    + destruct (find (q_uuid q)); split; try (intros [= <-]; auto); intros (_ & _ & ->); reflexivity.
    + destruct (api (q_api q)) eqn:E; cbn [negb].
      * destruct (find (q_uuid q)); split; try (intros [= <-]; auto); intros (_ & _ & ->); reflexivity.
      * destruct (find (q_uuid q)); (split; [discriminate|]; intros ([?|?] & _); congruence).
Qed.

(** * The theorem *)

(** The read for [ar] writes the bytes [bs] and has the result [e]. *)
Definition gives (body : option Z -> rwreq -> wr -> outcome (wr * pnio)) (room : Z) (ar : option Z) (q : rwreq) (bs : list Z) (e : pnio) : Prop :=
  forall b len pos, 0 <= pos -> pos + room <= len -> len <= Z.of_nat (length b) -> len < 65536 ->
    body ar q (mkWr (Some b) len pos) = Ok (mkWr (Some (put_at b (Z.to_nat pos) bs)) len (pos + Z.of_nat (length bs)), e).

(** C129: exactly the requests that are one read request, with that length, for an API that exists and, if not
    implicit, with a UUID, are executed, for the connection of that UUID (implicit: of the target).  The
    controller reads the result, the length of what the read has written, and then that. *)
Theorem C129_read : forall find api implicit body bs e room st d b i w, Forall byte b -> Z.of_nat (length b) < 65536 -> 0 <= i <= Z.of_nat (length b) ->
  p_code st = 0 -> pnio_ok st -> ndr_ok d -> (forall ar q, pnio_ok (e ar q) /\ gives body room ar q (bs ar q) (e ar q) /\ Z.of_nat (length (bs ar q)) <= room) -> room_for (20 + room) w ->
  exists o e' w', read_ind true find api implicit body st d (rdr b i) w = Ok (o, e', w') /\
    (forall ar q, o = Some (ar, q) <-> d_args d = 64 /\ exists t, one_read b i q t /\ reads_for find api implicit q t ar) /\
    (forall ar q, o = Some (ar, q) -> e' = e ar q /\ exists wb front n, w_buf w = Some wb /\ n = Z.of_nat (length (bs ar q)) /\ dec true true get_front front (e ar q, mkNdr n (d_max d) (d_offset d) n) /\
       w' = mkWr (Some (put_at wb (Z.to_nat (w_pos w)) (front ++ bs ar q))) (w_len w) (w_pos w + 20 + n)) /\
    (o = None -> w' = w).
Proof.
  intros find api implicit body bs_ e_ room st d b i w B S0 I C0 S1 D HB (wb & W1 & W2 & W3 & W4 & W5). destruct w as [wbuf wlen wpos]. cbn [w_buf w_pos w_len] in *. subst wbuf.
  unfold read_ind. rewrite C0. cbn [Z.eqb negb]. destruct (interpret_exact b B S0 st (d_args d) i I) as (x & X1 & X2). rewrite X1. cbn [obind].
  destruct x as [[q t]|e0].
  2:{ exists None, e0, (mkWr (Some wb) wlen wpos). split; [reflexivity|]. split; [|split; [discriminate|reflexivity]]. intros ar q. split; [discriminate|].
      intros (A & t & O & _). destruct (X2 q t) as (_ & X3). specialize (X3 (conj O A)). discriminate. }
  destruct (proj1 (X2 q t) eq_refl) as (O & A).
  assert (ONE : forall q' t', one_read b i q' t' -> (q', t') = (q, t)) by (intros q' t' (_ & _ & _ & ->); destruct O as (_ & _ & _ & ->); reflexivity).
  destruct (RecordModel.read_ar find api implicit q t) as [ar|e0] eqn:RA.
  2:{ exists None, e0, (mkWr (Some wb) wlen wpos). split; [reflexivity|]. split; [|split; [discriminate|reflexivity]]. intros ar q'. split; [discriminate|].
      intros (_ & t' & O' & R). pose proof (ONE q' t' O') as Q. injection Q as -> ->. apply read_ar_exact in R. congruence. }
  destruct (HB ar q) as (E & G & L). set (bs := bs_ ar q) in *. set (e := e_ ar q) in *.
  set (n := Z.of_nat (length bs)) in *. set (d' := mkNdr n (d_max d) (d_offset d) n).
  assert (D' : ndr_ok d') by (destruct D as (_ & D1 & D2 & _); unfold ndr_ok, u32_ok; cbn; unfold u32_ok in *; lia).
  assert (XS : forall s, pnio_ok s -> enc (put_pnet_status true s) (est s)) by (intros s Hs; apply enc_pnio; exact Hs).
  rewrite (XS st S1) by (cbn [est length]; lia). cbn [obind].
  rewrite (enc_ndr true d D) by (rewrite ?endr_length, ?put_at_length; cbn [est length]; lia). cbn [obind].
  assert (LE : length (est st) = 4%nat) by reflexivity.
  rewrite G; [|lia|rewrite endr_length, LE; lia|rewrite !put_at_length by (rewrite ?put_at_length; rewrite ?endr_length, ?LE; lia); lia|exact W5]. cbn [obind w_buf w_len w_pos].
  replace (wpos + Z.of_nat (length (est st)) + Z.of_nat (length (endr true d))) with (wpos + 20) by (rewrite LE, endr_length; lia). rewrite LE. fold n.
  replace (Z.to_nat (wpos + 20)) with (Z.to_nat wpos + length (est st ++ endr true d))%nat by (rewrite app_length, endr_length, LE; lia).
  replace (Z.to_nat (wpos + Z.of_nat 4)) with (Z.to_nat wpos + length (est st))%nat by (rewrite LE; lia).
  rewrite put_at_app by (rewrite ?endr_length, ?LE; lia). rewrite put_at_app by (rewrite app_length, endr_length, LE; lia).
  rewrite (XS e E); [|lia|cbn [est length]; lia|rewrite put_at_length by (rewrite !app_length, endr_length, LE; lia); lia|exact W5]. cbn [obind w_buf w_len].
  rewrite <- app_assoc. pose proof (put_at_over wb (Z.to_nat wpos) [] (est st) (est e) (endr true d ++ bs) eq_refl ltac:(cbn [app]; rewrite !app_length, endr_length, LE; lia)) as PO.
  cbn [app length] in PO. rewrite Nat.add_0_r in PO. rewrite PO. clear PO.
  replace (wpos + 20 + n - (wpos + 20)) with n by lia. rewrite u32_id by lia. fold d'.
  rewrite (enc_ndr true d' D'); [|lia|rewrite endr_length; lia|rewrite put_at_length by (rewrite !app_length, endr_length; cbn [est length]; lia); lia|exact W5]. cbn [obind w_buf w_len].
  replace (Z.to_nat (wpos + Z.of_nat 4)) with (Z.to_nat wpos + length (est e))%nat by (cbn [est length]; lia).
  rewrite put_at_over by (rewrite ?app_length, ?endr_length; cbn [est length]; lia).
  eexists _, _, _. split; [reflexivity|]. split; [|split; [|discriminate]].
  - intros ar' q'. split.
    + intros [= <- <-]. split; [exact A|]. exists t. split; [exact O|]. apply read_ar_exact. exact RA.
    + intros (_ & t' & O' & R). pose proof (ONE q' t' O') as Q. injection Q as -> ->. apply read_ar_exact in R. congruence.
  - intros ar' q' [= <- <-]. split; [reflexivity|]. exists wb, (est e ++ endr true d'), n. split; [reflexivity|]. split; [reflexivity|]. split.
    + destruct D' as (D1 & D2 & D3 & D4). unfold get_front, endr, u32_ok in *. apply (dec_bind _ _ true true true _ _ _ _ _ _ (dec_pnio true e)).
      do 3 (eapply dec_bind; [apply dec_u32; assumption|]). eapply dec_last; [apply dec_u32; assumption|]. reflexivity.
    + rewrite <- app_assoc. reflexivity.
Qed.
Print Assumptions C129_read.

(** * Examples, and what does not hold *)

Definition ex_read (api : Z) : list Z := [0; 9; 0; 60; 1; 0; 0; 5; 17; 34; 51; 68; 85; 102; 119; 136] ++ ex_uuid4_ ++ [0; 0; 0; api; 0; 1; 0; 1; 0; 0; 175; 240; 0; 0; 1; 0] ++ repeat 0 24.
Definition ex_rq (api : Z) : rwreq := mkRwreq 5 ex_id api 1 1 45040 256.
Definition ex_find (u : uuid) : option Z := if ex_known u then Some 1 else None.
Definition ex_api (x : Z) : bool := x =? 7.
Definition ex_body (ar : option Z) (q : rwreq) (w : wr) : outcome (wr * pnio) := do w' <- put_mem [1; 2; 3] w; Ok (w', fine).

(** A request as C129 speaks of it, executed for connection 1. *)
Example C129_example : one_read (ex_read 7) 0 (ex_rq 7) (mkUuid 0 0 0 (repeat 0 8)) /\ reads_for ex_find ex_api false (ex_rq 7) (mkUuid 0 0 0 (repeat 0 8)) (Some 1) /\
  (forall ar q, gives ex_body 40 ar q [1; 2; 3] fine) /\ room_for 60 (mkWr (Some (repeat 0 60)) 60 0) /\
  exists w', read_ind true ex_find ex_api false ex_body fine (ex_ndr 64) (rdr (ex_read 7) 0) (mkWr (Some (repeat 0 60)) 60 0) = Ok (Some (Some 1, ex_rq 7), fine, w').
Proof.
  split; [split; [reflexivity|split; [reflexivity|split; [vm_compute; discriminate|reflexivity]]]|]. split; [split; [right; reflexivity|split; reflexivity]|].
  split; [|split; [exists (repeat 0 60); cbn; repeat split; lia|eexists; vm_compute; reflexivity]].
  intros ar q b len pos P L M N. unfold ex_body. assert (X : enc (put_mem [1; 2; 3]) [1; 2; 3]) by exact (enc_mem [1; 2; 3]). rewrite X by (cbn [length]; lia). reflexivity.
Qed.

(** A refused read is answered without a status: the controller is told nothing of the error. *)
Theorem C129_silent_refuted : ~ (forall find api implicit body st d b w e w', read_ind true find api implicit body st d (rdr b 0) w = Ok (None, e, w') -> p_code e <> 0 -> w_pos w < w_pos w').
Proof.
  intros H. assert (X : read_ind true ex_find ex_api false ex_body fine (ex_ndr 64) (rdr (ex_read 3) 0) (mkWr (Some (repeat 0 60)) 60 0) = Ok (None, mkPnio 222 128 180 6, mkWr (Some (repeat 0 60)) 60 0)) by (vm_compute; reflexivity).
  specialize (H _ _ _ _ _ _ _ _ _ _ X ltac:(discriminate)). cbn in H. lia.
Qed.
Print Assumptions C129_silent_refuted.

(** A read that is refused for the length of its block leaves "no error" as the result. *)
Theorem C129_length_refuted : ~ (forall find api implicit body d b w e w', read_ind true find api implicit body fine d (rdr b 0) w = Ok (None, e, w') -> p_code e <> 0).
Proof.
  intros H. assert (X : read_ind true ex_find ex_api false ex_body fine (ex_ndr 64) (rdr (firstn 2 (ex_read 7) ++ [0; 61] ++ skipn 4 (ex_read 7)) 0) (mkWr (Some (repeat 0 60)) 60 0) = Ok (None, fine, mkWr (Some (repeat 0 60)) 60 0)) by (vm_compute; reflexivity).
  specialize (H _ _ _ _ _ _ _ _ _ X). apply H. reflexivity.
Qed.
Print Assumptions C129_length_refuted.
