(** Properties C70-C78: DCP requests. *)
From Coq Require Import List ZArith Arith Bool Lia.
From Verif Require Import Base CminaModel CminaSpec CminaInv CminaProps DcpModel DcpSpec DcpInv DcpLoops DcpStep.
Import ListNotations.
Local Open Scope Z_scope.

(** ** C70: requests that are not for this device *)

Theorem C70_foreign : forall k alloc room f s t,
  dest_of f <> k_mac k ->
  get_set k alloc room f s = Ok t -> no_effect s t.
Proof.
  intros k alloc room f s t D H. apply get_set_cases in H as [H|(A & _)]; [assumption|contradiction].
Qed.

(** A request that announces more data than the frame has. *)
Theorem C70_truncated : forall k alloc room f s t dl,
  0 <= f_pos f <= 65000 -> rd16 (f_mem f) (f_pos f + 10) = Ok dl ->
  f_pos f + 12 + dl < 65536 -> f_len f < f_pos f + 12 + dl -> 0 <= dl ->
  get_set k alloc room f s = Ok t -> no_effect s t.
Proof.
  intros k alloc room f s t dl P R B L D H. unfold get_set in H. cbv zeta in H.
  rewrite (u16_id (f_pos f + 2)) in H by lia. replace (f_pos f + 2 + 8) with (f_pos f + 10) in H by lia.
  rewrite R in H. cbn [obind] in H. rewrite (u16_id (f_pos f + 2 + 10)) in H by lia.
  rewrite u16_id in H by lia.
  destruct (Z.ltb_spec (f_len f) (f_pos f + 2 + 10 + dl)); [|lia].
  injection H as <-. apply no_effect_free.
Qed.

(** ** Well-formed requests *)

Section Msg.
  Variables (q : msg).
  Hypothesis OK : msg_ok q.
  Let f := frame_of q.
  Let H := length (msg_head q).

  Lemma head_len : H = (24 + length (q_mid q))%nat.
  Proof.
    destruct OK as (A & B & _ & C & D & _). unfold H, msg_head. rewrite !app_length, A, B, C, D.
    cbn [length w16]. lia.
  Qed.
  Lemma msg_len : Z.of_nat H + Z.of_nat (length (q_data q)) <= f_len f <= 65000.
  Proof.
    destruct OK as (_ & _ & _ & _ & _ & _ & P & L & _). unfold f in *. split; [|exact L].
    cbn [frame_of f_len]. rewrite app_length. fold H. lia.
  Qed.
  Lemma head_even : Nat.even H = true.
  Proof.
    rewrite head_len. destruct OK as (_ & _ & E & _). rewrite Nat.even_add, E. reflexivity.
  Qed.
  Lemma msg_hdr : u16 (f_pos f + 2) = Z.of_nat H - 10.
  Proof.
    assert (L := msg_len). unfold f. cbn [frame_of f_pos]. rewrite head_len in *. rewrite u16_id; lia.
  Qed.
  Lemma msg_pos : u16 (Z.of_nat H - 10 + 10) = Z.of_nat H.
  Proof. assert (L := msg_len). rewrite u16_id; lia. Qed.
  Lemma msg_dlen : rd16 (f_mem f) (Z.of_nat H - 10 + 8) = Ok (Z.of_nat (length (q_data q))).
  Proof.
    apply rd16_at with (pre := q_dest q ++ q_src q ++ q_mid q ++ q_fid q
                             ++ [q_sid q; q_type q] ++ q_xid q ++ w16 (q_delay q)) (post := q_data q ++ q_junk q).
    - unfold f. cbn [frame_of f_mem]. unfold msg_head. rewrite <- !app_assoc. reflexivity.
    - rewrite head_len. destruct OK as (A & B & _ & C & D & _). rewrite !app_length, A, B, C, D.
      cbn [length w16]. lia.
  Qed.
  Lemma msg_dcplen : u16 (Z.of_nat H + Z.of_nat (length (q_data q))) = Z.of_nat (H + length (q_data q)).
  Proof. assert (L := msg_len). rewrite u16_id; lia. Qed.
  Lemma msg_src : slice (f_mem f) 6 6 = Ok (q_src q).
  Proof.
    destruct OK as (A & B & _).
    apply slice_at with (pre := q_dest q)
      (post := q_mid q ++ q_fid q ++ [q_sid q; q_type q] ++ q_xid q ++ w16 (q_delay q)
               ++ w16 (Z.of_nat (length (q_data q))) ++ q_data q ++ q_junk q).
    - unfold f. cbn [frame_of f_mem]. unfold msg_head. rewrite <- !app_assoc. reflexivity.
    - rewrite A. reflexivity.
    - rewrite B. reflexivity.
  Qed.
  Lemma msg_dest : slice (f_mem f) 0 6 = Ok (q_dest q).
  Proof.
    destruct OK as (A & B & _).
    apply slice_at with (pre := [])
      (post := q_src q ++ q_mid q ++ q_fid q ++ [q_sid q; q_type q] ++ q_xid q ++ w16 (q_delay q)
               ++ w16 (Z.of_nat (length (q_data q))) ++ q_data q ++ q_junk q).
    - unfold f. cbn [frame_of f_mem]. unfold msg_head. rewrite <- !app_assoc. reflexivity.
    - reflexivity.
    - rewrite A. reflexivity.
  Qed.
  Definition dcp_header : list Z :=
    [q_sid q; q_type q] ++ q_xid q ++ w16 (q_delay q) ++ w16 (Z.of_nat (length (q_data q))).
  Lemma msg_header : slice (f_mem f) (Z.of_nat H - 10) 10 = Ok dcp_header.
  Proof.
    destruct OK as (A & B & _ & C & D & _).
    apply slice_at with (pre := q_dest q ++ q_src q ++ q_mid q ++ q_fid q) (post := q_data q ++ q_junk q).
    - unfold f. cbn [frame_of f_mem]. unfold msg_head, dcp_header. rewrite <- !app_assoc. reflexivity.
    - rewrite head_len, !app_length, A, B, C. lia.
    - unfold dcp_header. rewrite !app_length, D. reflexivity.
  Qed.
  Lemma msg_sid : rd8 (f_mem f) (Z.of_nat H - 10) = Ok (q_sid q).
  Proof.
    destruct OK as (A & B & _ & C & D & _).
    apply rd8_at with (pre := q_dest q ++ q_src q ++ q_mid q ++ q_fid q)
      (post := q_type q :: q_xid q ++ w16 (q_delay q) ++ w16 (Z.of_nat (length (q_data q))) ++ q_data q ++ q_junk q).
    - unfold f. cbn [frame_of f_mem]. unfold msg_head. rewrite <- !app_assoc. reflexivity.
    - rewrite head_len, !app_length, A, B, C. lia.
  Qed.
  Lemma msg_delay : rd16 (f_mem f) (Z.of_nat H - 10 + 6) = Ok (q_delay q).
  Proof.
    destruct OK as (A & B & _ & C & D & _).
    apply rd16_at with (pre := q_dest q ++ q_src q ++ q_mid q ++ q_fid q ++ [q_sid q; q_type q] ++ q_xid q)
      (post := w16 (Z.of_nat (length (q_data q))) ++ q_data q ++ q_junk q).
    - unfold f. cbn [frame_of f_mem]. unfold msg_head. rewrite <- !app_assoc. reflexivity.
    - rewrite head_len, !app_length, A, B, C, D. cbn [length]. lia.
  Qed.
  Lemma msg_mem : f_mem f = msg_head q ++ q_data q ++ q_junk q.
  Proof. reflexivity. Qed.
  Lemma msg_rounds : (S (length (q_data q)) <= rounds f)%nat.
  Proof. assert (L := msg_len). unfold rounds. lia. Qed.

  Lemma msg_response : forall own fid stype body, (length body <= 1474)%nat -> 0 <= fid < 65536 ->
    response (q_src q) own fid stype dcp_header body = answer_frame q own (w16 fid) stype body.
  Proof.
    intros own fid stype body L F. destruct OK as (_ & _ & _ & _ & D & _).
    unfold response, answer_frame, dcp_header. rewrite !w16_be by lia.
    destruct (q_xid q) as [|x1 [|x2 [|x3 [|x4 [|]]]]]; try discriminate. reflexivity.
  Qed.
End Msg.

Definition may_ask (q : msg) (s : dst) : Prop := d_sam s = mac_nil \/ d_sam s = q_src q.

Lemma check_sam_ok : forall q s, may_ask q s -> check_sam (demit DGot s) (q_src q) = true.
Proof.
  intros q s M. unfold check_sam. cbn [demit d_sam]. apply orb_true_intro. rewrite !list_eqb_eq. exact M.
Qed.
Lemma check_dest_ok : forall k q, dcfg_ok k -> q_dest q = k_mac k -> check_dest (k_mac k) (q_dest q) = true.
Proof.
  intros k q (_ & O' & _) D. unfold check_dest. rewrite D, odd_land, O'. cbn [negb andb].
  apply list_eqb_eq. reflexivity.
Qed.

Ltac enter q OK :=
  unfold get_set, identify; cbv zeta;
  rewrite (msg_hdr q OK), (msg_pos q OK), (msg_dlen q OK); cbn [obind];
  rewrite (msg_dcplen q OK);
  let L := fresh in assert (L := msg_len q OK);
  match goal with |- context [f_len ?f <? ?z] => destruct (Z.ltb_spec (f_len f) z); [lia|] end; clear L.

(** ** C72: Set *)

Lemma enc_set_len : forall l, (6 * length l <= length (enc_set l))%nat.
Proof.
  induction l as [|b l IH]; [cbn; lia|]. cbn [enc_set flat_map length]. fold (enc_set l).
  rewrite app_length. unfold enc_sblock. rewrite even_pad_len, !app_length. cbn [length w16]. lia.
Qed.
Lemma set_errors_len : forall k l c, length (set_errors k l c) = length l.
Proof.
  induction l as [|b l IH]; intros c; [reflexivity|]. cbn [set_errors length].
  destruct (asked b); [destruct (set_ind _ _ _ _) as [[? ?] ?]|]; cbn [length]; rewrite IH; reflexivity.
Qed.
Lemma set_answer_len : forall l es, length es = length l -> length (set_answer l es) = (8 * length l)%nat.
Proof.
  induction l as [|b l IH]; intros [|e es] L; try discriminate; [reflexivity|].
  cbn [set_answer combine flat_map length]. rewrite app_length. fold (set_answer l es).
  rewrite IH by (cbn [length] in L; lia). cbn [length]. lia.
Qed.

(** A Set request of at most 184 blocks is answered with one block per block of the
    request, in their order; the settings change by what is asked for. *)
Theorem C72_partial : forall k room q l s,
  dcfg_ok k -> msg_ok q -> q_sid q = 4 -> q_data q = enc_set l -> Forall sblock_ok l -> (length l <= 184)%nat ->
  q_dest q = k_mac k -> may_ask q s ->
  exists t, get_set k true room (frame_of q) s = Ok t /\
    sent (d_tr t) = answer_frame q (k_mac k) [254; 253] 1 (set_answer l (set_errors k l (d_cm s))) :: sent (d_tr s) /\
    d_cm t = cstep k (NSet (asked_all l)) (d_cm s) /\
    d_led t = (if existsb is_signal l then
                 match d_led s with
                 | None => if room then Some (d_now s + 500000, 5) else None
                 | Some x => Some x
                 end
               else d_led s) /\
    d_sam t = q_src q /\ d_samt t = (if room then Some (d_now s + 3000000) else None) /\
    d_wait t = d_wait s /\ d_resp t = d_resp s /\ d_now t = d_now s.
Proof.
  intros k room q l s K OK SID DA BL LL DE MA. enter q OK. cbn [negb].
  rewrite (msg_src q OK), (msg_dest q OK). cbn [obind].
  rewrite (check_sam_ok q s MA), (check_dest_ok k q K DE). cbn [negb orb].
  rewrite (msg_header q OK), (msg_sid q OK), SID. cbn [obind Z.eqb Pos.eqb].
  destruct (set_loop_spec l (rounds (frame_of q)) k room (f_mem (frame_of q))
              (Z.of_nat (length (msg_head q) + length (q_data q))) (msg_head q) (q_junk q) [] (demit DGot s)) as (qual & R).
  { rewrite msg_mem, DA. reflexivity. }
  { destruct OK as (_ & _ & _ & _ & _ & J & _). exact J. }
  { destruct OK as (_ & _ & _ & _ & _ & _ & _ & _ & _ & J). exact J. }
  { apply (head_even q OK). }
  { rewrite DA. reflexivity. }
  { assert (L := msg_len q OK). lia. }
  { assumption. }
  { assert (L := msg_rounds q OK). assert (X := enc_set_len l). rewrite DA in L. lia. }
  { reflexivity. }
  { cbn [length]. lia. }
  destruct (rd16 (f_mem (frame_of q)) (Z.of_nat (length (msg_head q)) + 2)) as [bl| |]; try discriminate.
  cbn [obind] in R |- *. rewrite R. clear R. cbn [obind app].
  eexists. split; [reflexivity|].
  cbn [restart_sam with_cm with_sam demit d_cm d_sam d_samt d_wait d_resp d_led d_qual d_now d_tr].
  rewrite (msg_response q OK) by
    (try (unfold get_set_id; lia); rewrite set_answer_len by apply set_errors_len; lia).
  split; [reflexivity|]. split; [reflexivity|]. split; [reflexivity|]. auto 10.
Qed.

(** ** C73: Get *)

Lemma enc_get_len : forall l, length (enc_get l) = (2 * length l)%nat.
Proof. induction l as [|b l IH]; [reflexivity|]. cbn [enc_get flat_map app length]. fold (enc_get l). lia. Qed.

(** A Get request whose answer fits in a frame is answered with what the device has
    to say about each option, in the order of the request. *)
Theorem C73_partial : forall k room q l s,
  dcfg_ok k -> ase_ok (cur (d_cm s)) -> msg_ok q -> q_sid q = 3 -> q_data q = enc_get l ->
  (length (get_answer k (cur (d_cm s)) l) <= 1474)%nat ->
  q_dest q = k_mac k -> may_ask q s ->
  exists t, get_set k true room (frame_of q) s = Ok t /\
    sent (d_tr t) = answer_frame q (k_mac k) [254; 253] 1 (get_answer k (cur (d_cm s)) l) :: sent (d_tr s) /\
    d_cm t = d_cm s /\ d_led t = d_led s /\
    d_sam t = q_src q /\ d_samt t = (if room then Some (d_now s + 3000000) else None) /\
    d_wait t = d_wait s /\ d_resp t = d_resp s /\ d_now t = d_now s.
Proof.
  intros k room q l s K A OK SID DA LL DE MA. enter q OK. cbn [negb].
  rewrite (msg_src q OK), (msg_dest q OK). cbn [obind].
  rewrite (check_sam_ok q s MA), (check_dest_ok k q K DE). cbn [negb orb].
  rewrite (msg_header q OK), (msg_sid q OK), SID. cbn [obind Z.eqb Pos.eqb].
  rewrite (get_loop_app l (rounds (frame_of q)) k (cur (d_cm (demit DGot s))) (f_mem (frame_of q))
              (Z.of_nat (length (msg_head q) + length (q_data q))) (msg_head q) (q_junk q) []); try assumption.
  - cbn [obind app]. eexists. split; [reflexivity|].
    cbn [restart_sam with_cm with_sam demit d_cm d_sam d_samt d_wait d_resp d_led d_qual d_now d_tr].
    rewrite (msg_response q OK) by (assumption || (unfold get_set_id; lia)).
    split; [reflexivity|]. auto 10.
  - rewrite msg_mem, DA. reflexivity.
  - rewrite DA. reflexivity.
  - assert (L := msg_len q OK). lia.
  - assert (L := msg_rounds q OK). assert (X := enc_get_len l). rewrite DA in L. lia.
  - reflexivity.
Qed.

(** No response is longer than a frame may be. *)
Theorem C73_size : forall k es c s, length (k_mac k) = 6%nat ->
  Forall (fun e => match e with DGetSet _ _ f | DIdentify _ _ _ f => bytes (f_mem f) | _ => True end) es ->
  drun k es (dinit c) = Ok s ->
  Forall (fun r => (length r <= 1500)%nat) (sent (d_tr s)).
Proof.
  intros k es c s K.
  assert (G : forall es s t, Forall (fun e => match e with DGetSet _ _ f | DIdentify _ _ _ f => bytes (f_mem f) | _ => True end) es ->
    Forall (fun r => (length r <= 1500)%nat) (sent (d_tr s)) /\
    match d_resp s with Some (_, b) => (length b <= 1500)%nat | None => True end ->
    drun k es s = Ok t ->
    Forall (fun r => (length r <= 1500)%nat) (sent (d_tr t)) /\
    match d_resp t with Some (_, b) => (length b <= 1500)%nat | None => True end).
  { clear es s. induction es as [|e es IH]; intros s t F I' R; cbn [drun] in R; [injection R as <-; assumption|].
    inversion F as [|? ? F1 F2]; subst.
    destruct (dstep k e s) as [s1| |] eqn:E; try discriminate. cbn [obind] in R.
    refine (IH s1 t F2 _ R). clear IH R F2. destruct I' as [I1 I2].
    destruct e as [alloc room f|alloc room names f|dt room|e]; cbn [dstep] in E.
    - apply get_set_cases in E as [(new & -> & N & _)|(_ & _ & c' & sam & samt & led & qq & r & -> & _ & L & _)];
        cbn [d_tr d_resp].
      + split; [|assumption]. unfold sent in *. rewrite flat_map_app, N. assumption.
      + split; [|assumption]. cbn [sent flat_map app]. constructor; assumption.
    - apply identify_cases in E as [(new & -> & N & _)|(_ & _ & due & b & -> & _ & L)]; [| |assumption];
        cbn [d_tr d_resp].
      + split; [|assumption]. unfold sent in *. rewrite flat_map_app, N. assumption.
      + split; [assumption|]. apply L. assumption.
    - injection E as <-.
      assert (LT : forall x, sent (d_tr (led_tick room x)) = sent (d_tr x) /\ d_resp (led_tick room x) = d_resp x).
      { intros x. unfold led_tick. destruct (d_led x) as [[t' n]|]; [|auto]. destruct (t' <=? d_now x); [|auto].
        destruct ((0 <? n) && (n <? 200)); auto. }
      destruct (LT (resp_tick (sam_tick (with_now (d_now s + dt) s)))) as [-> ->].
      set (x := sam_tick (with_now (d_now s + dt) s)).
      assert (X : d_tr x = d_tr s /\ d_resp x = d_resp s).
      { unfold x, sam_tick. cbn [with_now d_samt]. destruct (d_samt s); [|auto]. destruct (_ <=? _); auto. }
      destruct X as [X1 X2]. unfold resp_tick. rewrite X2.
      destruct (d_resp s) as [[due b]|]; [|rewrite X1; rewrite X2; auto].
      destruct (due <=? d_now x).
      + cbn [with_resp demit d_tr d_resp sent flat_map app]. rewrite X1. split; [constructor; assumption|exact Logic.I].
      + rewrite X1, X2. auto.
    - destruct e; injection E as <-; cbn [d_tr d_resp with_cm]; auto. }
  intros F R. apply (G es (dinit c) s F); [|exact R]. cbn. auto.
Qed.

Print Assumptions C70_foreign.
Print Assumptions C70_truncated.
Print Assumptions C72_partial.
Print Assumptions C73_partial.
Print Assumptions C73_size.
