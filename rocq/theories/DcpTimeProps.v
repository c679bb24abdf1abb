(** Properties C71, C74-C78: DCP requests over time. *)
From Coq Require Import List ZArith Arith Bool Lia.
From Verif Require Import Base CminaModel CminaSpec CminaInv CminaProps DcpModel DcpSpec DcpInv DcpLoops DcpStep DcpProps.
Import ListNotations.
Local Open Scope Z_scope.

Lemma drun_app : forall k a b s, drun k (a ++ b) s = do t <- drun k a s; drun k b t.
Proof.
  induction a as [|e a IH]; intros b s; [reflexivity|]. cbn [app drun].
  destruct (dstep k e s); [cbn [obind]; apply IH|reflexivity|reflexivity].
Qed.

(** What the timers do. *)
Lemma tick_parts : forall k dt room s t, dstep k (DTick dt room) s = Ok t ->
  d_now t = d_now s + dt /\ d_cm t = d_cm s /\
  d_sam t = (match d_samt s with Some x => if x <=? d_now s + dt then mac_nil else d_sam s | None => d_sam s end) /\
  d_samt t = (match d_samt s with Some x => if x <=? d_now s + dt then None else Some x | None => None end) /\
  (match d_resp s with
   | Some (x, b) => if x <=? d_now s + dt then d_resp t = None /\ d_wait t = false else d_resp t = d_resp s /\ d_wait t = d_wait s
   | None => d_resp t = None /\ d_wait t = d_wait s end) /\
  d_led t = (match d_led s with
             | Some (x, n) => if x <=? d_now s + dt then
                 (if (0 <? n) && (n <? 200) then (if room then Some (d_now s + dt + 500000, n - 1) else None) else None)
                 else Some (x, n)
             | None => None end) /\
  d_tr t = (match d_led s with Some (x, n) => if x <=? d_now s + dt then [DLed (Z.odd n)] else [] | None => [] end) ++
           (match d_resp s with Some (x, b) => if x <=? d_now s + dt then [DFree; DSend b] else [] | None => [] end) ++
           d_tr s.
Proof.
  intros k dt room s t E. cbn [dstep] in E. injection E as <-.
  destruct s as [cm sam samt w resp led qual now tr].
  unfold sam_tick, with_now. cbn [d_samt d_now d_sam d_cm d_wait d_resp d_led d_qual d_tr].
  set (x1 := match samt with Some t => _ | None => _ end).
  assert (X1 : x1 = mkDst cm (match samt with Some x => if x <=? now + dt then mac_nil else sam | None => sam end)
                      (match samt with Some x => if x <=? now + dt then None else Some x | None => None end)
                      w resp led qual (now + dt) tr)
    by (unfold x1; destruct samt as [y|]; [destruct (y <=? now + dt)|]; reflexivity).
  rewrite X1. clear x1 X1. unfold resp_tick. cbn [d_resp d_now].
  destruct resp as [[y b]|]; [destruct (y <=? now + dt)|];
    (unfold led_tick; cbn [with_resp demit d_led d_now];
     destruct led as [[z n]|]; [destruct (z <=? now + dt); [destruct ((0 <? n) && (n <? 200))|]|];
     cbn [with_led with_resp demit d_cm d_sam d_samt d_wait d_resp d_led d_qual d_now d_tr app];
     unfold led_half; auto 10).
Qed.

Lemma cmina_parts : forall k e s t, dstep k (DCmina e) s = Ok t ->
  match e with NRestart _ => False | _ => True end ->
  t = with_cm (cstep k e (d_cm s)) s.
Proof. intros k e s t E R. cbn [dstep] in E. destruct e; injection E as <-; try contradiction; reflexivity. Qed.

(** ** C71: only one partner at a time *)

(** After a Get or Set request that was answered, requests with another source address
    have no effect for three seconds, whatever happens meanwhile. *)
Theorem C71_lock : forall k alloc room f s s1 es s2 alloc' room' f' t,
  0 <= f_pos f <= 65000 -> service_of f = Some 3 \/ service_of f = Some 4 ->
  get_set k alloc room f s = Ok s1 -> answered s s1 -> src_of f <> repeat 0 6 ->
  Forall (fun e => match e with DIdentify _ _ _ g => bytes (f_mem g) | _ => True end) es ->
  forward es -> powered es -> elapsed es < 3000000 -> drun k es s1 = Ok s2 ->
  src_of f' <> src_of f ->
  get_set k alloc' room' f' s2 = Ok t -> no_effect s2 t.
Proof.
  intros k alloc room f s s1 es s2 alloc' room' f' t P SV E AN NZ BY FW PW EL R NE H.
  set (A := src_of f) in *. set (T := d_now s + 3000000).
  set (locked := fun x => d_sam x = A /\ match d_samt x with Some y => T <= y | None => True end).
  assert (L1 : locked s1 /\ d_now s1 = d_now s).
  { apply get_set_cases in E as [(new & -> & N & _)|(_ & _ & c' & sam & samt & led & qq & r & -> & _ & _ & _ & L)].
    - destruct AN as (r & AN). cbn [d_tr] in AN. unfold sent in *. rewrite flat_map_app, N in AN.
      cbn [app] in AN. apply (f_equal (@length _)) in AN. cbn [length] in AN. lia.
    - destruct (L P SV) as [-> ->]. unfold locked. cbn. split; [|reflexivity]. split; [reflexivity|].
      destruct room; [unfold T; lia|exact Logic.I]. }
  assert (G : forall es x y, locked x -> d_now s <= d_now x ->
     Forall (fun e => match e with DIdentify _ _ _ g => bytes (f_mem g) | _ => True end) es ->
     forward es -> powered es -> d_now x + elapsed es < T -> drun k es x = Ok y -> locked y).
  { clear es s2 BY FW PW EL R H. induction es as [|e es IH]; intros x y L N BY FW PW EL R;
      cbn [drun] in R; [injection R as <-; assumption|].
    inversion BY as [|? ? BY1 BY2]; inversion FW as [|? ? FW1 FW2]; inversion PW as [|? ? PW1 PW2]; subst.
    destruct (dstep k e x) as [z| |] eqn:D; try discriminate. cbn [obind] in R.
    assert (EP : 0 <= elapsed es).
    { clear - FW2. induction es as [|e es IH]; cbn [elapsed]; [lia|]. inversion FW2; subst.
      destruct e; auto. specialize (IH H2). lia. }
    destruct L as [L1' L2].
    destruct e as [al rm g|al rm nm g|dt rm|e]; cbn [elapsed] in EL.
    - assert (Z' : locked z /\ d_now z = d_now x).
      { cbn [dstep] in D. apply get_set_cases in D as
          [(new & -> & _)|(_ & S' & c' & sam & samt & led & qq & r & -> & _ & _ & L & _)];
          unfold locked; cbn [d_sam d_samt d_now]; [auto|].
        split; [|reflexivity].
        assert (SG : src_of g = A) by (destruct S' as [S'|S']; [rewrite L1' in S'; exfalso; exact (NZ S')|congruence]).
        destruct L as [[-> ->]|[-> ->]]; [|auto]. split; [assumption|].
        destruct rm; [unfold T; lia|exact Logic.I]. }
      destruct Z' as [Z1 Z2]. apply (IH z y Z1); try assumption; lia.
    - assert (Z' : locked z /\ d_now z = d_now x).
      { cbn [dstep] in D. apply identify_cases in D as
          [(new & -> & _)|(_ & _ & due & b & -> & _)]; [| |assumption]; unfold locked; cbn [d_sam d_samt d_now]; auto. }
      destruct Z' as [Z1 Z2]. apply (IH z y Z1); try assumption; lia.
    - apply tick_parts in D as (D1 & _ & D2 & D3 & _).
      apply (IH z y); try assumption; [|lia|lia].
      unfold locked. rewrite D2, D3. destruct (d_samt x) as [v|]; [|auto].
      destruct (Z.leb_spec v (d_now x + dt)); [lia|]. auto.
    - apply cmina_parts in D; [|destruct e; auto]. subst z.
      apply (IH (with_cm (cstep k e (d_cm x)) x) y); try assumption.
      split; assumption. }
  destruct L1 as [L1 N1].
  assert (L2 : locked s2) by (apply (G es s1 s2); try assumption; unfold T; lia).
  destruct L2 as [L2 _].
  apply get_set_cases in H as [H|(_ & S' & _)]; [assumption|exfalso].
  rewrite L2 in S'. destruct S' as [S'|S']; [exact (NZ S')|congruence].
Qed.

(** Every well-formed Get or Set request to the device is answered unless another
    partner has the lock. *)
Lemma answered_if : forall k room q s, dcfg_ok k -> msg_ok q -> bytes (f_mem (frame_of q)) ->
  q_dest q = k_mac k -> may_ask q s ->
  exists t, get_set k true room (frame_of q) s = Ok t /\ answered s t.
Proof.
  intros k room q s K OK B DE MA. enter q OK. cbn [negb].
  rewrite (msg_src q OK), (msg_dest q OK). cbn [obind].
  rewrite (check_sam_ok q s MA), (check_dest_ok k q K DE). cbn [negb orb].
  rewrite (msg_header q OK), (msg_sid q OK). cbn [obind].
  assert (LM : (length (f_mem (frame_of q)) = length (msg_head q) + length (q_data q) + length (q_junk q))%nat)
    by (rewrite msg_mem, !app_length; lia).
  assert (J : (32 <= length (q_junk q))%nat) by (destruct OK as (_ & _ & _ & _ & _ & J & _); exact J).
  assert (ML := msg_len q OK). assert (HL := head_len q OK).
  assert (RO : (length (msg_head q) + length (q_data q) < rounds (frame_of q))%nat) by (unfold rounds; lia).
  destruct (q_sid q =? 4).
  - destruct (rd16_ok (f_mem (frame_of q)) (Z.of_nat (length (msg_head q)) + 2) B) as (bl & -> & BL); [lia|lia|].
    cbn [obind]. rewrite u16_id by lia.
    destruct (set_loop_total (rounds (frame_of q)) k room (f_mem (frame_of q))
      (Z.of_nat (length (msg_head q) + length (q_data q))) (Z.of_nat (length (msg_head q)))
      (Z.of_nat (length (msg_head q)) + 4) bl [] (demit DGot s)) as ([body s1] & R); try assumption; try lia.
    rewrite R. cbn [obind]. eexists. split; [reflexivity|].
    apply set_loop_same in R as [(c & led & qq & -> & _) _]; [|cbn [length]; lia].
    eexists. cbn [restart_sam with_cm with_sam demit d_tr sent flat_map app]. reflexivity.
  - destruct (q_sid q =? 3).
    + destruct (get_loop_total (rounds (frame_of q)) k (cur (d_cm (demit DGot s))) (f_mem (frame_of q))
        (Z.of_nat (length (msg_head q) + length (q_data q))) (Z.of_nat (length (msg_head q))) []) as (body & R); try lia.
      rewrite R. cbn [obind]. eexists. split; [reflexivity|].
      eexists. cbn [restart_sam with_cm with_sam demit d_tr sent flat_map app]. reflexivity.
    + cbn [obind]. eexists. split; [reflexivity|].
      eexists. cbn [restart_sam with_cm with_sam demit d_tr sent flat_map app]. reflexivity.
Qed.

Definition frames_bytes (es : list dinput) : Prop :=
  Forall (fun e => match e with DGetSet _ _ f | DIdentify _ _ _ f => bytes (f_mem f) | _ => True end) es.

Lemma elapsed_pos : forall es, forward es -> 0 <= elapsed es.
Proof.
  induction es as [|e es IH]; intros F; cbn [elapsed]; [lia|]. inversion F; subst.
  destruct e; auto. specialize (IH H2). lia.
Qed.

(** The lock lasts at most three seconds after the last Get or Set request: then
    everyone's request is answered.  Partial: the scheduler has room for the timer. *)
Theorem C71_release_partial : forall k es1 es2 c s room q,
  dcfg_ok k -> frames_bytes (es1 ++ es2) -> forward (es1 ++ es2) -> powered (es1 ++ es2) -> roomy es1 ->
  existsb is_get_set es2 = false -> 3000000 <= elapsed es2 ->
  drun k (es1 ++ es2) (dinit c) = Ok s ->
  msg_ok q -> bytes (f_mem (frame_of q)) -> q_dest q = k_mac k ->
  exists t, get_set k true room (frame_of q) s = Ok t /\ answered s t.
Proof.
  intros k es1 es2 c s room q K BY FW PW RM NG EL R OK B DE.
  apply answered_if; try assumption. left.
  rewrite drun_app in R. destruct (drun k es1 (dinit c)) as [s1| |] eqn:R1; try discriminate. cbn [obind] in R.
  apply Forall_app in BY as [BY1 BY2]. apply Forall_app in FW as [FW1 FW2]. apply Forall_app in PW as [PW1 PW2].
  assert (I1 : d_sam s1 = mac_nil \/ exists y, d_samt s1 = Some y /\ y <= d_now s1 + 3000000).
  { set (Inv := fun x => d_sam x = mac_nil \/ exists y, d_samt x = Some y /\ y <= d_now x + 3000000).
    assert (G : forall es x y, Inv x -> frames_bytes es -> forward es -> powered es -> roomy es ->
       drun k es x = Ok y -> Inv y).
    { clear. induction es as [|e es IH]; intros x y I' BY FW PW RM R; cbn [drun] in R; [injection R as <-; assumption|].
      inversion BY; inversion FW; inversion PW; inversion RM; subst.
      destruct (dstep k e x) as [z| |] eqn:D; try discriminate. cbn [obind] in R.
      refine (IH z y _ _ _ _ _ R); try assumption. clear IH R.
      destruct e as [al rm g|al rm nm g|dt rm|e]; cbn beta iota in *.
      - subst rm. cbn [dstep] in D. apply get_set_cases in D as
          [(new & -> & _)|(_ & S' & c' & sam & samt & led & qq & r & -> & _ & _ & L & _)]; [exact I'|].
        unfold Inv. cbn [d_sam d_samt d_now]. destruct L as [[-> ->]|[-> ->]]; [|exact I'].
        right. eexists. split; [reflexivity|lia].
      - cbn [dstep] in D. apply identify_cases in D as [(new & -> & _)|(_ & _ & due & b & -> & _)]; assumption.
      - apply tick_parts in D as (D1 & _ & D2 & D3 & _). unfold Inv in *. rewrite D1, D2, D3.
        destruct I' as [I'|(v & -> & V)].
        + left. rewrite I'. destruct (d_samt x); [destruct (_ <=? _)|]; reflexivity.
        + destruct (v <=? d_now x + dt); [left; reflexivity|]. right. exists v. split; [reflexivity|lia].
      - apply cmina_parts in D; [|destruct e; auto]. subst z. exact I'. }
    apply (G es1 (dinit c) s1); try assumption. left. reflexivity. }
  assert (G : forall es x y, frames_bytes es -> forward es -> powered es -> existsb is_get_set es = false ->
     d_sam x = mac_nil \/ (exists v, d_samt x = Some v /\ v <= d_now x + elapsed es) ->
     (elapsed es = 0 -> d_sam x = mac_nil \/ (exists v, d_samt x = Some v /\ d_now x < v)) ->
     drun k es x = Ok y -> d_sam y = mac_nil).
  { clear. induction es as [|e es IH]; intros x y BY FW PW NG I' J R; cbn [drun] in R.
    - injection R as <-. cbn [elapsed] in *. destruct I' as [I'|(v & V1 & V2)]; [assumption|].
      destruct (J eq_refl) as [J'|(w & W1 & W2)]; [assumption|]. rewrite V1 in W1. injection W1 as ->. lia.
    - inversion BY; inversion FW; inversion PW; subst. cbn [existsb] in NG. apply orb_false_elim in NG as [NG1 NG2].
      destruct (dstep k e x) as [z| |] eqn:D; try discriminate. cbn [obind] in R.
      destruct e as [al rm g|al rm nm g|dt rm|e]; [discriminate| | |]; cbn [elapsed] in *.
      + cbn [dstep] in D. apply identify_cases in D as [(new & -> & _)|(_ & _ & due & b & -> & _)];
          [refine (IH _ _ H2 H6 H10 NG2 _ _ R); assumption|refine (IH _ _ H2 H6 H10 NG2 _ _ R); assumption|assumption].
      + apply tick_parts in D as (D1 & _ & D2 & D3 & _).
        assert (EP := elapsed_pos es H6).
        apply (IH z y); try assumption; rewrite D1, D2, D3.
        * destruct I' as [I'|(v & -> & V)].
          -- left. rewrite I'. destruct (d_samt x); [destruct (_ <=? _)|]; reflexivity.
          -- destruct (v <=? d_now x + dt); [left; reflexivity|]. right. exists v. split; [reflexivity|lia].
        * intros E0. destruct I' as [I'|(v & -> & V)].
          -- left. rewrite I'. destruct (d_samt x); [destruct (_ <=? _)|]; reflexivity.
          -- destruct (Z.leb_spec v (d_now x + dt)); [left; reflexivity|]. right. exists v. split; [reflexivity|lia].
      + apply cmina_parts in D; [|destruct e; auto]. subst z.
        refine (IH _ _ H2 H6 H10 NG2 _ _ R); assumption. }
  apply (G es2 s1 s); try assumption.
  - destruct I1 as [I1|(v & V1 & V2)]; [left; assumption|]. right. exists v. split; [assumption|lia].
  - lia.
Qed.

(** If the scheduler is full when the lock is taken, it is never released: no other
    partner is ever answered, however much time passes. *)
Theorem C71_refuted : forall k s f s1, dest_of f = k_mac k ->
  0 <= f_pos f <= 65000 -> service_of f = Some 3 \/ service_of f = Some 4 -> src_of f <> repeat 0 6 ->
  get_set k true false f s = Ok s1 -> answered s s1 ->
  forall es s2 f' t, Forall (fun e => match e with DTick _ _ => True | DGetSet _ _ g => src_of g <> src_of f | _ => False end) es ->
  drun k es s1 = Ok s2 -> src_of f' <> src_of f ->
  get_set k true true f' s2 = Ok t -> no_effect s2 t.
Proof.
  intros k s f s1 D0 P SV NZ E AN es s2 f' t F R NE H.
  assert (L1 : d_sam s1 = src_of f /\ d_samt s1 = None).
  { apply get_set_cases in E as [(new & -> & N & _)|(_ & _ & c' & sam & samt & led & qq & r & -> & _ & _ & _ & L)].
    - destruct AN as (r & AN). cbn [d_tr] in AN. unfold sent in *. rewrite flat_map_app, N in AN.
      cbn [app] in AN. apply (f_equal (@length _)) in AN. cbn [length] in AN. lia.
    - destruct (L P SV) as [-> ->]. split; reflexivity. }
  assert (L2 : d_sam s2 = src_of f /\ d_samt s2 = None).
  { clear H t E AN s. revert s1 L1 F R. induction es as [|e es IH]; intros s1 L1 F R; cbn [drun] in R; [injection R as <-; assumption|].
    inversion F; subst. destruct (dstep k e s1) as [z| |] eqn:D; try discriminate. cbn [obind] in R.
    refine (IH z _ _ R); [|assumption]. destruct L1 as [LA LB].
    destruct e as [al rm g|al rm nm g|dt rm|e]; try contradiction.
    - cbn [dstep] in D. apply get_set_cases in D as [(new & -> & _)|(_ & S' & _)]; [split; assumption|].
      exfalso. rewrite LA in S'. destruct S' as [S'|S']; [exact (NZ S')|congruence].
    - apply tick_parts in D as (_ & _ & D2 & D3 & _). rewrite D2, D3, LB. auto. }
  destruct L2 as [L2 _].
  apply get_set_cases in H as [H|(_ & S' & _)]; [assumption|exfalso].
  rewrite L2 in S'. destruct S' as [S'|S']; [exact (NZ S')|congruence].
Qed.

(** ** C74: Identify *)

Lemma cstr_len : forall a, In 0 a -> (length (cstr a) < length a)%nat.
Proof.
  intros a H. destruct (cstr_split a H) as (r & E & _). apply (f_equal (@length Z)) in E.
  rewrite app_length in E. cbn [length] in E. lia.
Qed.

Lemma pos_len : forall o s i v, (length (pos_block o s i v) <= 7 + length v)%nat.
Proof.
  intros o s i v. unfold pos_block. rewrite even_pad_len, !app_length. cbn [length w16].
  destruct (Nat.odd _); lia.
Qed.

Lemma identify_body_eq : forall k a l alias, dcfg_ok k -> ase_ok a ->
  alias = (match l with b :: _ => if (i_opt b =? 2) && (i_sub b =? 6) then Some (i_val b) else None | [] => None end) ->
  (match alias with Some v => length v < 256 | None => True end)%nat ->
  identify_body k a alias = identify_answer k a l /\ (length (identify_answer k a l) <= 1474)%nat.
Proof.
  intros k a l alias K A EA LA. assert (K' := K). assert (A' := A).
  destruct K as (K1 & K2 & K3 & K4 & K5 & K6 & K7), A as (A1 & A2 & A3).
  apply cstr_len in K5, A2.
  set (al := match alias with Some v => pos_block 2 6 0 v | None => [] end).
  assert (EAL : (match l with
     | b :: _ => if (i_opt b =? 2) && (i_sub b =? 6) then pos_block 2 6 0 (i_val b) else []
     | [] => []
     end) = al).
  { unfold al. rewrite EA. destruct l as [|b l]; [reflexivity|]. destruct (_ && _); reflexivity. }
  assert (L1 : (length (answer k a 1 2) <= 19)%nat).
  { cbn [answer]. eapply Nat.le_trans; [apply pos_len|]. unfold suite_bytes. rewrite !app_length. cbn [length w32]. lia. }
  assert (L2 : (length (answer k a 2 1) <= 32)%nat)
    by (cbn [answer]; eapply Nat.le_trans; [apply pos_len|]; lia).
  assert (L3 : (length (answer k a 2 2) <= 247)%nat)
    by (cbn [answer]; eapply Nat.le_trans; [apply pos_len|]; lia).
  assert (L4 : (length (answer k a 2 3) <= 11)%nat)
    by (cbn [answer]; eapply Nat.le_trans; [apply pos_len|]; lia).
  assert (L5 : (length (answer k a 2 4) <= 9)%nat)
    by (cbn [answer]; eapply Nat.le_trans; [apply pos_len|]; cbn [length]; lia).
  assert (L6 : (length (answer k a 2 5) <= 35)%nat)
    by (cbn [answer]; eapply Nat.le_trans; [apply pos_len|]; cbn [length supported]; lia).
  assert (L7 : (length al <= 262)%nat).
  { unfold al. destruct alias; [eapply Nat.le_trans; [apply pos_len|]; lia|cbn [length]; lia]. }
  unfold identify_answer. rewrite EAL.
  split; [|rewrite !app_length; lia].
  unfold identify_body. cbn [device_options fold_left fst snd].
  assert (X : forall o s out, (o = 1 /\ s = 2) \/ (o = 2 /\ 1 <= s <= 5) ->
     Nat.even (length out) = true -> (length out + length (answer k a o s) <= 1474)%nat ->
     get_req k a true alias o s out = out ++ answer k a o s).
  { intros o s out OS Ev L. rewrite <- get_req_app by assumption. unfold get_req.
    replace (get_block k a true alias o s) with (get_block k a false None o s); [reflexivity|].
    destruct OS as [[-> ->]|[-> OS]]; [reflexivity|].
    assert (s = 1 \/ s = 2 \/ s = 3 \/ s = 4 \/ s = 5) as [->|[->|[->|[->| ->]]]] by lia; reflexivity. }
  set (o1 := answer k a 1 2) in *. set (o2 := answer k a 2 1) in *. set (o3 := answer k a 2 2) in *.
  set (o4 := answer k a 2 3) in *. set (o5 := answer k a 2 4) in *. set (o6 := answer k a 2 5) in *.
  assert (E1 : Nat.even (length o1) = true) by apply answer_even.
  assert (E2 : Nat.even (length o2) = true) by apply answer_even.
  assert (E3 : Nat.even (length o3) = true) by apply answer_even.
  assert (E4 : Nat.even (length o4) = true) by apply answer_even.
  assert (E5 : Nat.even (length o5) = true) by apply answer_even.
  assert (E6 : Nat.even (length o6) = true) by apply answer_even.
  unfold o_ip, o_prop, o_control, o_all, i_par, i_mac, p_vendor, p_name, p_id, p_role, p_options, p_alias,
    c_start, c_stop, c_signal, c_factory, c_reset.
  assert (S1 : forall out, get_req k a true alias 1 1 out = out) by reflexivity.
  assert (S5 : forall s out, get_req k a true alias 5 s out = out) by reflexivity.
  assert (S255 : forall s out, get_req k a true alias 255 s out = out) by reflexivity.
  assert (SA : forall out, Nat.even (length out) = true -> (length out + length al <= 1474)%nat ->
     get_req k a true alias 2 6 out = out ++ al).
  { intros out Ev L. unfold get_req, al in *. destruct alias as [v|].
    - change (get_block k a true (Some v) 2 6) with (Some (2, 6, Some 0, v)). apply put_pos; [assumption|lia|assumption].
    - change (get_block k a true None 2 6) with (@None (Z * Z * option Z * list Z)). symmetry. apply app_nil_r. }
  rewrite (X 1 2 []) by (try (left; auto; fail); cbn [length]; try reflexivity; fold o1; lia). fold o1.
  cbn [app]. rewrite S1.
  assert (AE : forall a b : list Z, Nat.even (length a) = true -> Nat.even (length b) = true -> Nat.even (length (a ++ b)) = true)
    by (intros; rewrite app_length; apply even_add; assumption).
  rewrite (X 2 1) by (try (right; lia); try assumption; fold o2; lia). fold o2.
  rewrite (X 2 2) by (try (right; lia); try (repeat apply AE; assumption); fold o3; rewrite !app_length; lia). fold o3.
  rewrite (X 2 3) by (try (right; lia); try (repeat apply AE; assumption); fold o4; rewrite !app_length; lia). fold o4.
  rewrite (X 2 4) by (try (right; lia); try (repeat apply AE; assumption); fold o5; rewrite !app_length; lia). fold o5.
  rewrite (X 2 5) by (try (right; lia); try (repeat apply AE; assumption); fold o6; rewrite !app_length; lia). fold o6.
  rewrite SA by (try (repeat apply AE; assumption); rewrite !app_length; lia).
  rewrite !S5, S255. rewrite <- !app_assoc. reflexivity.
Qed.

Lemma spread_eq : forall k f, dcfg_ok k -> 0 <= f -> response_delay (k_mac k) f = spread (k_mac k) f.
Proof.
  intros k f (K1 & _ & K3 & _) F. unfold response_delay, spread.
  assert (N : forall i, byte (nth i (k_mac k) 0)).
  { intros i. unfold bytes in K3. rewrite Forall_forall in K3. destruct (nth_in_or_default i (k_mac k) 0) as [H|H].
    - auto.
    - rewrite H. unfold byte. lia. }
  assert (N4 := N 4%nat). assert (N5 := N 5%nat). unfold byte in *.
  destruct (Z.eqb_spec f 0), (Z.leb_spec 1 f), (Z.leb_spec f 6400), (Z.ltb_spec 6400 f); cbn [orb andb]; try lia.
  rewrite u16_id by lia. rewrite (Z.mul_comm 256). lia.
Qed.

Lemma enc_identify_len : forall l, (4 * length l <= length (enc_identify l))%nat.
Proof.
  induction l as [|b l IH]; [cbn; lia|]. cbn [enc_identify flat_map length]. fold (enc_identify l).
  rewrite app_length. unfold enc_iblock. rewrite even_pad_len, !app_length. cbn [length w16]. lia.
Qed.

Definition alias_short (l : list iblock) : Prop :=
  match l with b :: _ => i_sub b = 6 -> (length (i_val b) < 256)%nat | [] => True end.

(** The answer that is going to be sent. *)
Definition will_answer (k : cfg) (q : msg) (l : list iblock) (s t : dst) : Prop :=
  d_resp t = Some (d_now s + spread (k_mac k) (q_delay q),
                   answer_frame q (k_mac k) [254; 255] 1 (identify_answer k (cur (d_cm s)) l)) /\
  d_wait t = true /\ d_cm t = d_cm s /\ d_sam t = d_sam s /\ d_samt t = d_samt s /\ d_led t = d_led s /\
  d_now t = d_now s /\ d_tr t = DFreeReq :: DGot :: d_tr s.

Lemma identify_hit : forall k names q l s hit alias, dcfg_ok k -> ase_ok (cur (d_cm s)) -> msg_ok q ->
  d_wait s = false ->
  (do blen <- rd16 (f_mem (frame_of q)) (Z.of_nat (length (msg_head q)) + 2);
   filter_loop (rounds (frame_of q)) k (cur (d_cm s)) names (f_mem (frame_of q))
     (Z.of_nat (length (msg_head q) + length (q_data q))) (Z.of_nat (length (msg_head q)))
     (u16 (Z.of_nat (length (msg_head q)) + 4)) blen true false None) = Ok (hit, alias) ->
  (hit = true -> alias = (match l with b :: _ => if (i_opt b =? 2) && (i_sub b =? 6) then Some (i_val b) else None | [] => None end)
     /\ (match alias with Some v => length v < 256 | None => True end)%nat) ->
  exists t, identify k true true names (frame_of q) s = Ok t /\
    (hit = true -> will_answer k q l s t) /\ (hit = false -> no_effect s t).
Proof.
  intros k names q l s hit alias K A OK W F HA. enter q OK. rewrite W. cbn [negb].
  rewrite (msg_src q OK). cbn [obind]. rewrite (msg_header q OK). cbn [obind].
  destruct (rd16 (f_mem (frame_of q)) (Z.of_nat (length (msg_head q)) + 2)) as [bl| |]; try discriminate.
  cbn [obind demit d_cm] in F |- *. rewrite F. cbn [obind].
  destruct hit.
  - destruct (HA eq_refl) as [EA LA].
    destruct (identify_body_eq k (cur (d_cm s)) l alias K A EA LA) as [EB LB].
    rewrite (msg_delay q OK). cbn [obind]. eexists. split; [reflexivity|]. split; [|discriminate].
    intros _. unfold will_answer.
    cbn [with_resp demit d_cm d_sam d_samt d_wait d_resp d_led d_qual d_now d_tr].
    rewrite (msg_response q OK) by (try (unfold id_res_id; lia); rewrite EB; assumption).
    assert (DL : 0 <= q_delay q) by (destruct OK as (_ & _ & _ & _ & _ & _ & _ & _ & DL & _); lia).
    rewrite spread_eq, EB by assumption. auto 10.
  - eexists. split; [reflexivity|]. split; [discriminate|]. intros _. apply no_effect_both'.
Qed.

(** An Identify request with name or alias first is answered if and only if the device
    has this name or alias and all other filters match.  (Filters: name, alias, MAC
    address, device identifier, OEM identifier, instance.) *)
Theorem C74_filter_partial : forall k names q l s,
  dcfg_ok k -> ase_ok (cur (d_cm s)) -> Forall (fun n => (length n < 256)%nat) names ->
  msg_ok q -> q_data q = enc_identify l -> l <> [] -> Forall plain_filter l -> d_wait s = false ->
  exists t, identify k true true names (frame_of q) s = Ok t /\
    (selected k (cur (d_cm s)) names l -> will_answer k q l s t) /\
    (~ selected k (cur (d_cm s)) names l -> no_effect s t).
Proof.
  intros k names q l s K A NM OK DA NE PF W.
  destruct (filter_loop_spec l (rounds (frame_of q)) k (cur (d_cm s)) names (f_mem (frame_of q))
    (Z.of_nat (length (msg_head q) + length (q_data q))) (msg_head q) (q_junk q) true false None)
    as (hit & al & R & H1 & H2); try assumption.
  { rewrite msg_mem, DA. reflexivity. }
  { destruct OK as (_ & _ & _ & _ & _ & J & _). exact J. }
  { destruct OK as (_ & _ & _ & _ & _ & _ & _ & _ & _ & J). exact J. }
  { apply (head_even q OK). }
  { rewrite DA. reflexivity. }
  { assert (L := msg_len q OK). lia. }
  { assert (L := msg_rounds q OK). assert (X := enc_identify_len l). rewrite DA in L. lia. }
  { left; reflexivity. }
  assert (SEL : hit = true <-> selected k (cur (d_cm s)) names l).
  { rewrite H1. unfold selected, names_first. destruct l as [|b l]; [congruence|].
    unfold is_name_block. split.
    - intros [F [D|D]]; [discriminate|]. split; [|assumption].
      apply andb_prop in D as [D1 D2]. apply orb_prop in D2.
      rewrite !Z.eqb_eq in *. destruct D2 as [D2|D2]; rewrite D1, D2; auto.
    - intros [D F]. split; [assumption|]. right.
      destruct D as [D|D]; injection D as -> ->; reflexivity. }
  destruct (identify_hit k names q l s hit al K A OK W R) as (t & T1 & T2 & T3).
  { intros Hh. rewrite (H2 Hh). destruct l as [|b l]; [congruence|]. cbn [alias_of]. unfold alias_after. cbn [andb].
    split; [reflexivity|]. destruct ((i_opt b =? 2) && (i_sub b =? 6)) eqn:C; [|exact Logic.I].
    apply H1 in Hh as [Hh _]. inversion Hh as [|? ? M _]; subst. unfold matches in M.
    apply andb_prop in C as [C1 C2]. apply Z.eqb_eq in C1, C2. rewrite C1, C2 in M. cbn iota in M.
    rewrite Forall_forall in NM. apply NM. exact M. }
  exists t. split; [assumption|]. split.
  - intros S'. apply T2. apply SEL. assumption.
  - intros S'. apply T3. destruct hit; [|reflexivity]. exfalso. apply S'. apply SEL. reflexivity.
Qed.

(** A request to all devices is answered. *)
Theorem C74_all : forall k names q l s,
  dcfg_ok k -> ase_ok (cur (d_cm s)) -> msg_ok q -> bytes (f_mem (frame_of q)) ->
  q_data q = enc_identify l -> to_all l -> d_wait s = false ->
  exists t, identify k true true names (frame_of q) s = Ok t /\ will_answer k q l s t.
Proof.
  intros k names q l s K A OK B DA (v & r & -> & LV) W.
  assert (HL := head_len q OK). assert (ML := msg_len q OK).
  assert (J : (32 <= length (q_junk q))%nat) by (destruct OK as (_ & _ & _ & _ & _ & J & _); exact J).
  set (b := mkIb 255 255 v) in *.
  destruct (enc_iblock_split b) as (p & Eb & Lp). cbn [i_val i_opt i_sub b] in Eb, Lp.
  assert (Ep : p = []) by (destruct LV as [LV|LV]; rewrite LV in Lp; destruct p; cbn in Lp; [reflexivity|discriminate|reflexivity|discriminate]).
  subst p. rewrite app_nil_r in Eb. cbn [enc_identify flat_map] in DA. fold (enc_identify r) in DA.
  set (h := length (msg_head q)) in *.
  assert (EM : f_mem (frame_of q) = msg_head q ++ [255; 255] ++ w16 (Z.of_nat (length v)) ++ v ++ enc_identify r ++ q_junk q).
  { rewrite msg_mem, DA, Eb, <- !app_assoc. reflexivity. }
  assert (LD : (length (q_data q) = 4 + length v + length (enc_identify r))%nat).
  { rewrite DA, Eb, !app_length. cbn [length w16]. lia. }
  destruct (identify_hit k names q (b :: r) s true None K A OK W) as (t & T1 & T2 & _).
  - rewrite (rd16_at _ (msg_head q ++ [255; 255]) (Z.of_nat (length v)) (v ++ enc_identify r ++ q_junk q));
      [|rewrite EM, <- !app_assoc; reflexivity|rewrite app_length; cbn [length]; fold h; lia].
    cbn [obind]. unfold rounds. cbn [filter_loop orb].
    rewrite u16_id by lia.
    destruct (Z.leb_spec (Z.of_nat h + 4 + Z.of_nat (length v)) (Z.of_nat (h + length (q_data q)))); [|lia].
    cbn [andb].
    rewrite (rd8_at _ (msg_head q) 255 (255 :: w16 (Z.of_nat (length v)) ++ v ++ enc_identify r ++ q_junk q));
      [|rewrite EM; reflexivity|reflexivity]. cbn [obind].
    rewrite (rd8_at _ (msg_head q ++ [255]) 255 (w16 (Z.of_nat (length v)) ++ v ++ enc_identify r ++ q_junk q));
      [|rewrite EM, <- app_assoc; reflexivity|rewrite app_length; cbn [length]; fold h; lia]. cbn [obind].
    unfold filter_block. cbv zeta. cbn [get_value o_all Z.eqb Pos.eqb andb].
    replace ((Z.of_nat (length v) =? 2) || (Z.of_nat (length v) =? 0)) with true
      by (destruct LV as [-> | ->]; reflexivity).
    cbn [obind].
    set (p1 := u16 _). assert (P1 : p1 = Z.of_nat h + 4 + Z.of_nat (length v)) by (unfold p1; apply u16_id; lia).
    set (p2 := if Z.odd p1 then u16 (p1 + 1) else p1).
    assert (P2 : p1 <= p2 <= p1 + 1) by (unfold p2; destruct (Z.odd p1); [rewrite u16_id by lia|]; lia).
    destruct (rd16_ok (f_mem (frame_of q)) (p2 + 2) B) as (b' & -> & _); [lia| |].
    { rewrite msg_mem, !app_length. fold h. lia. }
    cbn [obind andb].
    assert (TN : exists n, Z.to_nat (f_len (frame_of q)) = S n) by (exists (pred (Z.to_nat (f_len (frame_of q)))); lia).
    destruct TN as (n & ->). cbn [filter_loop orb andb]. destruct (_ <=? _); reflexivity.
  - intros _. cbn [b i_opt]. cbn [Z.eqb Pos.eqb andb]. auto.
  - exists t. auto.
Qed.

(** ** C75: one answer, in time *)

Theorem C75_delay : forall mac factor, 0 <= factor ->
  0 <= spread mac factor <= Z.max 0 (Z.min factor 6400 - 1) * 10000.
Proof.
  intros mac factor F. unfold spread.
  destruct (Z.leb_spec 1 factor), (Z.leb_spec factor 6400); cbn [andb]; try lia.
  assert (A := Z.mod_pos_bound (256 * nth 4 mac 0 + nth 5 mac 0) factor). lia.
Qed.

(** The pending answer is sent once, when its time has come and not before; until then
    further Identify requests have no effect. *)
Theorem C75_pending : forall k s due b es t, d_resp s = Some (due, b) -> d_wait s = true ->
  frames_bytes es -> forward es -> powered es -> d_now s + elapsed es < due ->
  drun k es s = Ok t ->
  d_resp t = Some (due, b) /\ d_wait t = true /\ d_now t = d_now s + elapsed es /\
  (forall alloc room names f u, bytes (f_mem f) -> identify k alloc room names f t = Ok u -> no_effect t u).
Proof.
  intros k s due b es. revert s. induction es as [|e es IH]; intros s t R W BY FW PW EL H; cbn [drun] in H.
  - injection H as <-. cbn [elapsed] in *. split; [assumption|]. split; [assumption|]. split; [lia|].
    intros alloc room names f u B H. apply identify_cases in H as [H|(_ & W' & _)]; [assumption|congruence|assumption].
  - inversion BY; inversion FW; inversion PW; subst.
    destruct (dstep k e s) as [z| |] eqn:D; try discriminate. cbn [obind] in H.
    assert (EP : 0 <= elapsed es) by (apply elapsed_pos; assumption).
    destruct e as [al rm g|al rm nm g|dt rm|e]; cbn [elapsed] in *.
    + cbn [dstep] in D. apply get_set_cases in D as
        [(new & -> & _)|(_ & S' & c' & sam & samt & led & qq & r & -> & _)];
        (apply IH in H; [cbn [d_now] in H; exact H|assumption..]).
    + cbn [dstep] in D. apply identify_cases in D as [(new & -> & _)|(_ & W' & _)]; [|congruence|assumption].
      apply IH in H; [cbn [d_now] in H; exact H|assumption..].
    + apply tick_parts in D as (D1 & _ & _ & _ & D2 & _). rewrite R in D2.
      destruct (Z.leb_spec due (d_now s + dt)); [lia|]. destruct D2 as [D2 D3].
      rewrite W in D3.
      destruct (IH z t D2 D3 ltac:(assumption) ltac:(assumption) ltac:(assumption) ltac:(lia) H) as (X1 & X2 & X3 & X4).
      split; [assumption|]. split; [assumption|]. split; [lia|assumption].
    + apply cmina_parts in D; [|destruct e; auto]. subst z.
      apply IH in H; [exact H|assumption..].
Qed.

Theorem C75_sent : forall k s due b dt room, d_resp s = Some (due, b) -> due <= d_now s + dt ->
  exists t, dstep k (DTick dt room) s = Ok t /\ sent (d_tr t) = b :: sent (d_tr s) /\
    d_resp t = None /\ d_wait t = false.
Proof.
  intros k s due b dt room R D. eexists. split; [reflexivity|].
  destruct (tick_parts k dt room s _ eq_refl) as (_ & _ & _ & _ & X & _ & Y). rewrite R in X, Y.
  apply Z.leb_le in D. rewrite D in X, Y. split; [|exact X].
  rewrite Y. destruct (d_led s) as [[z n]|]; [destruct (z <=? _)|]; reflexivity.
Qed.

Lemma count_app : forall p a b, count p (a ++ b) = (count p a + count p b)%nat.
Proof. intros p a b. unfold count. rewrite filter_app, app_length. reflexivity. Qed.

Definition is_request (e : dinput) : bool := is_get_set e || is_identify e.

(** Every buffer is freed exactly once: the buffer of a request when it has been
    handled, that of a response when it has been sent or given up. *)
Theorem C75_buffers : forall k es c s, frames_bytes es -> powered es ->
  drun k es (dinit c) = Ok s ->
  count is_got (d_tr s) = (count is_free (d_tr s) + match d_resp s with Some _ => 1 | None => 0 end)%nat /\
  count is_free_req (d_tr s) = length (filter is_request es) /\
  (d_wait s = true <-> d_resp s <> None).
Proof.
  intros k es c s BY PW R.
  assert (G : forall es s t n, frames_bytes es -> powered es ->
    count is_got (d_tr s) = (count is_free (d_tr s) + match d_resp s with Some _ => 1 | None => 0 end)%nat ->
    count is_free_req (d_tr s) = n ->
    (d_wait s = true <-> d_resp s <> None) ->
    drun k es s = Ok t ->
    count is_got (d_tr t) = (count is_free (d_tr t) + match d_resp t with Some _ => 1 | None => 0 end)%nat /\
    count is_free_req (d_tr t) = (n + length (filter is_request es))%nat /\
    (d_wait t = true <-> d_resp t <> None)).
  { clear. induction es as [|e es IH]; intros s t n BY PW I1 I2 I3 R; cbn [drun] in R.
    - injection R as <-. cbn [filter length]. rewrite Nat.add_0_r. auto.
    - inversion BY; inversion PW; subst.
      destruct (dstep k e s) as [z| |] eqn:D; try discriminate. cbn [obind] in R.
      destruct e as [al rm g|al rm nm g|dt rm|e]; cbn [filter is_request is_get_set is_identify orb length].
      + replace (count is_free_req (d_tr s) + S (length (filter is_request es)))%nat
          with (S (count is_free_req (d_tr s)) + length (filter is_request es))%nat by lia.
        apply (IH z t); try assumption;
          cbn [dstep] in D; apply get_set_cases in D as
          [(new & -> & _ & _ & N1 & N2)|(_ & S' & c' & sam & samt & led & qq & r & -> & _)]; cbn [d_tr d_resp d_wait];
          rewrite ?count_app, ?N1, ?N2; try assumption; try lia; unfold count in *; cbn [filter is_got is_free is_free_req length]; lia.
      + replace (count is_free_req (d_tr s) + S (length (filter is_request es)))%nat
          with (S (count is_free_req (d_tr s)) + length (filter is_request es))%nat by lia.
        cbn [dstep] in D. apply identify_cases in D; [|assumption].
        destruct D as [(new & -> & _ & _ & N1 & N2)|(_ & W & due & b & -> & _)].
        * refine (IH _ t _ ltac:(assumption) ltac:(assumption) _ _ _ R);
            cbn [d_tr d_resp d_wait]; rewrite ?count_app, ?N1, ?N2; try assumption; lia.
        * assert (RN : d_resp s = None).
          { destruct (d_resp s); [|reflexivity]. rewrite W in I3. destruct I3 as [_ I3].
            specialize (I3 ltac:(discriminate)). discriminate. }
          rewrite RN in I1.
          refine (IH _ t _ ltac:(assumption) ltac:(assumption) _ _ _ R);
            cbn [d_tr d_resp d_wait]; unfold count in *; cbn [filter is_got is_free is_free_req length]; try lia.
          split; [discriminate|reflexivity].
      + apply tick_parts in D as (_ & _ & _ & _ & D2 & _ & D3).
        apply (IH z t); try assumption; rewrite ?D3;
          (destruct (d_resp s) as [[y b]|] eqn:RS; [destruct (y <=? d_now s + dt)|]; destruct D2 as [D2 D4];
           rewrite ?D2, ?D4, ?RS; rewrite ?D3; rewrite ?count_app;
           destruct (d_led s) as [[w m]|]; [destruct (w <=? d_now s + dt)| | destruct (w <=? d_now s + dt)| | destruct (w <=? d_now s + dt)|];
           unfold count in *; cbn [app filter is_got is_free is_free_req length]; try lia; try assumption;
           try (split; congruence)).
      + apply cmina_parts in D; [|destruct e; auto]. subst z.
        refine (IH _ t _ H2 H6 _ _ _ R); [assumption|reflexivity|assumption]. }
  apply (G es (dinit c) s 0%nat); try assumption; try reflexivity.
  cbn. split; [discriminate|congruence].
Qed.

Print Assumptions C71_lock.
Print Assumptions C71_release_partial.
Print Assumptions C71_refuted.
Print Assumptions C74_filter_partial.
Print Assumptions C74_all.
Print Assumptions C75_delay.
Print Assumptions C75_pending.
Print Assumptions C75_sent.
Print Assumptions C75_buffers.
