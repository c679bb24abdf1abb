(** Properties C76-C78: the signal LED, arbitrary frames and answers to answers;
    counterexamples and examples for C70-C78. *)
From Coq Require Import List ZArith Arith Bool Lia.
From Verif Require Import Base CminaModel CminaSpec CminaInv CminaProps DcpModel DcpSpec DcpInv DcpLoops DcpStep
  DcpProps DcpTimeProps.
Import ListNotations.
Local Open Scope Z_scope.

(** ** C76: the signal LED *)

Lemma times_app : forall n l r, times n l ++ l ++ r = times (S n) l ++ r.
Proof.
  intros n l r. cbn [times]. rewrite <- app_assoc.
  induction n as [|n IH]; cbn [times]; [reflexivity|]. rewrite <- !app_assoc, IH. reflexivity.
Qed.

Definition led_inv (s : dst) : Prop :=
  exists n j, (j <= 5)%nat /\ rev (leds (d_tr s)) = times n flashes ++ firstn j flashes /\
    match d_led s with None => j = 0%nat | Some (x, m) => m = 5 - Z.of_nat j /\ x <= d_now s + 500000 end.

Lemma leds_app : forall a b, leds (a ++ b) = leds a ++ leds b.
Proof. intros a b. unfold leds. apply flat_map_app. Qed.

Lemma resp_leds : forall r x, leds (match r with Some (y, b) => if y <=? x then [DFree; DSend b] else [] | None => [] end) = [].
Proof. intros [[y b]|] x; [destruct (y <=? x)|]; reflexivity. Qed.

Lemma led_tick_inv : forall k dt s t, 0 <= dt -> led_inv s -> dstep k (DTick dt true) s = Ok t -> led_inv t.
Proof.
  intros k dt s t P (n & j & J & R & L) D.
  apply tick_parts in D as (D1 & _ & _ & _ & _ & D2 & D3). unfold led_inv. rewrite D1, D2, D3.
  rewrite !leds_app, resp_leds. cbn [app].
  destruct (d_led s) as [[x m]|]; [|exists n, j; auto].
  destruct L as [-> L]. destruct (Z.leb_spec x (d_now s + dt)).
  - cbn [leds flat_map app rev]. rewrite R.
    destruct j as [|[|[|[|[|[|]]]]]]; [| | | | | |lia].
    1: exists n, 1%nat. 2: exists n, 2%nat. 3: exists n, 3%nat. 4: exists n, 4%nat. 5: exists n, 5%nat.
    1-5: split; [lia|]; split; [rewrite <- app_assoc; reflexivity|split; [reflexivity|lia]].
    exists (S n), 0%nat. split; [lia|]. split; [|reflexivity].
    rewrite <- times_app, <- app_assoc. reflexivity.
  - exists n, j. split; [assumption|]. split; [assumption|]. split; [reflexivity|lia].
Qed.

Lemma led_inv_run : forall k es s t, frames_bytes es -> forward es -> powered es -> roomy es ->
  led_inv s -> drun k es s = Ok t -> led_inv t.
Proof.
  intros k. induction es as [|e es IH]; intros s t BY FW PW RM I' R; cbn [drun] in R; [injection R as <-; assumption|].
  inversion BY; inversion FW; inversion PW; inversion RM; subst.
  destruct (dstep k e s) as [z| |] eqn:D; try discriminate. cbn [obind] in R.
  refine (IH z t _ _ _ _ _ R); try assumption. clear IH R.
  destruct e as [al rm g|al rm nm g|dt rm|e]; cbn beta iota in *.
  - destruct I' as (n & j & J & R & L). cbn [dstep] in D. apply get_set_cases in D as
      [(new & -> & _ & N & _)|(_ & S' & c' & sam & samt & led & qq & r & -> & LN & _)]; unfold led_inv;
      cbn [d_tr d_led d_now].
    + rewrite leds_app, N. exists n, j. auto.
    + cbn [leds flat_map app]. fold (leds (d_tr s)).
      destruct LN as [->|(LN & _ & ->)]; [exists n, j; auto|]. rewrite LN in L.
      exists n, j. split; [assumption|]. split; [assumption|]. split; lia.
  - destruct I' as (n & j & J & R & L). cbn [dstep] in D. apply identify_cases in D as
      [(new & -> & _ & N & _)|(_ & _ & due & b & -> & _)]; [| |assumption]; unfold led_inv; cbn [d_tr d_led d_now].
    + rewrite leds_app, N. exists n, j. auto.
    + exists n, j. auto.
  - subst rm. apply (led_tick_inv k dt s z); assumption.
  - apply cmina_parts in D; [|destruct e; auto]. subst z. exact I'.
Qed.

(** As long as the scheduler has room, the LED is only ever switched in groups of
    three flashes; the last group may not be complete yet, and then goes on. *)
Theorem C76_flashes_partial : forall k es c s, frames_bytes es -> forward es -> powered es -> roomy es ->
  drun k es (dinit c) = Ok s ->
  exists n j, (j < 6)%nat /\ rev (leds (d_tr s)) = times n flashes ++ firstn j flashes /\
    (j <> 0%nat -> d_led s <> None).
Proof.
  intros k es c s BY FW PW RM R.
  destruct (led_inv_run k es (dinit c) s BY FW PW RM) as (n & j & J & E & L); [|assumption|].
  - exists 0%nat, 0%nat. split; [lia|]. split; reflexivity.
  - exists n, j. split; [lia|]. split; [assumption|]. intros NJ. destruct (d_led s) as [[x m]|]; [discriminate|congruence].
Qed.

(** Once requested, the flashes are completed: after six more rounds of half a second
    the LED is off and all groups are complete. *)
Theorem C76_complete_partial : forall k es c s dts t, frames_bytes es -> forward es -> powered es -> roomy es ->
  drun k es (dinit c) = Ok s ->
  Forall (fun dt => 500000 <= dt) dts -> (6 <= length dts)%nat ->
  drun k (map (fun dt => DTick dt true) dts) s = Ok t ->
  exists n, rev (leds (d_tr t)) = times n flashes /\ d_led t = None /\
    (d_led s <> None -> leds (d_tr t) <> leds (d_tr s)).
Proof.
  intros k es c s dts t BY FW PW RM R F LN H.
  assert (I0 : led_inv s).
  { apply (led_inv_run k es (dinit c) s BY FW PW RM); [|assumption].
    exists 0%nat, 0%nat. split; [lia|]. split; reflexivity. }
  clear R BY FW PW RM.
  set (left := fun x => match d_led x with None => 0 | Some (_, m) => m + 1 end).
  assert (ST : forall dt x y, 500000 <= dt -> led_inv x -> dstep k (DTick dt true) x = Ok y ->
     left y = Z.max 0 (left x - 1) /\
     (length (leds (d_tr y)) = length (leds (d_tr x)) + (if (0 <? left x)%Z then 1 else 0))%nat).
  { intros dt x y P (n & j & J & E & L) D.
    apply tick_parts in D as (_ & _ & _ & _ & _ & D2 & D3). unfold left. rewrite D2, D3.
    rewrite !leds_app, resp_leds. destruct (d_led x) as [[z m]|]; [|split; [lia|cbn; lia]].
    destruct L as [-> L]. destruct (Z.leb_spec z (d_now x + dt)); [|lia].
    cbn [leds flat_map app length]. destruct (Z.ltb_spec 0 (5 - Z.of_nat j + 1)); [|lia].
    split; [|fold (leds (d_tr x)); lia].
    destruct (Z.ltb_spec 0 (5 - Z.of_nat j)), (Z.ltb_spec (5 - Z.of_nat j) 200); cbn [andb]; lia. }
  assert (G : forall dts x y, led_inv x -> Forall (fun dt => 500000 <= dt) dts ->
     drun k (map (fun dt => DTick dt true) dts) x = Ok y ->
     led_inv y /\ left y = Z.max 0 (left x - Z.of_nat (length dts)) /\
     (length (leds (d_tr x)) <= length (leds (d_tr y)))%nat /\
     (0 < left x -> dts <> [] -> (length (leds (d_tr x)) < length (leds (d_tr y)))%nat)).
  { clear - ST. induction dts as [|dt dts IH]; intros x y I' F R; cbn [map drun] in R.
    - injection R as <-. cbn [length]. split; [assumption|].
      assert (0 <= left x).
      { destruct I' as (n & j & J & _ & L). unfold left. destruct (d_led x) as [[? ?]|]; lia. }
      split; [lia|]. split; [lia|congruence].
    - inversion F; subst.
      destruct (dstep k (DTick dt true) x) as [z| |] eqn:D; try discriminate. cbn [obind] in R.
      destruct (ST dt x z ltac:(assumption) I' D) as [S1 S2].
      assert (Iz : led_inv z) by (apply (led_tick_inv k dt x z); try assumption; lia).
      destruct (IH z y Iz ltac:(assumption) R) as (A1 & A2 & A3 & A4). cbn [length].
      split; [assumption|]. split; [lia|].
      destruct (Z.ltb_spec 0 (left x)); split; try lia. }
  destruct (G dts s t I0 F H) as (It & Lt & _ & Lq).
  destruct It as (n & j & J & E & L).
  assert (S5 : left s <= 6).
  { destruct I0 as (n' & j' & J' & _ & L'). unfold left. destruct (d_led s) as [[? ?]|]; lia. }
  assert (T0 : left t = 0) by lia.
  assert (TN : d_led t = None).
  { unfold left in T0. destruct (d_led t) as [[x m]|]; [lia|reflexivity]. }
  rewrite TN in L. subst j. rewrite app_nil_r in E.
  exists n. split; [assumption|]. split; [assumption|].
  intros NS EQ. rewrite EQ in Lq.
  assert (length (leds (d_tr s)) < length (leds (d_tr s)))%nat; [|lia].
  apply Lq; [|destruct dts; [cbn in LN; lia|discriminate]].
  destruct I0 as (n' & j' & J' & _ & L'). unfold left. destruct (d_led s) as [[? ?]|]; [lia|congruence].
Qed.

(** The LED is never switched twice within half a second. *)
Theorem C76_spacing : forall k s dt room t es u,
  dstep k (DTick dt room) s = Ok t -> leds (d_tr t) <> leds (d_tr s) ->
  frames_bytes es -> forward es -> powered es -> elapsed es < 500000 ->
  drun k es t = Ok u -> leds (d_tr u) = leds (d_tr t).
Proof.
  intros k s dt room t es u D N BY FW PW EL R.
  set (T := d_now t + 500000).
  assert (I0 : match d_led t with Some (x, _) => T <= x | None => True end).
  { apply tick_parts in D as (D1 & _ & _ & _ & _ & D2 & D3). rewrite D3, !leds_app, resp_leds in N.
    unfold T. rewrite D2, D1. destruct (d_led s) as [[x m]|]; [|contradiction N; reflexivity].
    destruct (x <=? d_now s + dt); [|contradiction N; reflexivity].
    destruct ((0 <? m) && (m <? 200)); [destruct room|]; auto. lia. }
  assert (G : forall es x y, match d_led x with Some (v, _) => T <= v | None => True end ->
     d_now t <= d_now x -> frames_bytes es -> forward es -> powered es -> d_now x + elapsed es < T ->
     drun k es x = Ok y -> leds (d_tr y) = leds (d_tr x)).
  { clear. induction es as [|e es IH]; intros x y I' P BY FW PW EL R; cbn [drun] in R; [injection R as <-; reflexivity|].
    inversion BY; inversion FW; inversion PW; subst.
    destruct (dstep k e x) as [z| |] eqn:D; try discriminate. cbn [obind] in R.
    assert (EP : 0 <= elapsed es) by (apply elapsed_pos; assumption).
    destruct e as [al rm g|al rm nm g|dt rm|e]; cbn [elapsed] in *.
    - cbn [dstep] in D. apply get_set_cases in D as
        [(new & -> & _ & N & _)|(_ & S' & c' & sam & samt & led & qq & r & -> & LN & _)].
      + apply IH in R; cbn [d_led d_now]; try assumption. rewrite R. cbn [d_tr]. rewrite leds_app, N. reflexivity.
      + apply IH in R; cbn [d_led d_now]; try assumption.
        destruct LN as [->|(_ & _ & ->)]; [assumption|unfold T; lia].
    - cbn [dstep] in D. apply identify_cases in D; [|assumption].
      destruct D as [(new & -> & _ & N & _)|(_ & _ & due & b & -> & _)].
      + apply IH in R; cbn [d_led d_now]; try assumption. rewrite R. cbn [d_tr]. rewrite leds_app, N. reflexivity.
      + apply IH in R; cbn [d_led d_now]; assumption.
    - apply tick_parts in D as (D1 & _ & _ & _ & _ & D2 & D3).
      apply IH in R; try assumption; [|rewrite D2|lia|lia].
      + rewrite R, D3, !leds_app, resp_leds. destruct (d_led x) as [[v m]|]; [|reflexivity].
        destruct (Z.leb_spec v (d_now x + dt)); [lia|reflexivity].
      + destruct (d_led x) as [[v m]|]; [|exact Logic.I]. destruct (Z.leb_spec v (d_now x + dt)); [lia|assumption].
    - apply cmina_parts in D; [|destruct e; auto]. subst z. apply IH in R; assumption. }
  apply (G es t u); try assumption; unfold T; lia.
Qed.

(** ** C77: arbitrary frames *)

(** Handling a Get or Set frame, whatever it contains, ends and stays within the
    buffer.  Partial: the buffer has 32 bytes behind the received frame. *)
Theorem C77_get_set_partial : forall k alloc room f s, bytes (f_mem f) ->
  0 <= f_pos f <= f_len f -> f_len f <= 60000 -> f_len f + 32 <= Z.of_nat (length (f_mem f)) ->
  exists t, get_set k alloc room f s = Ok t.
Proof.
  intros k alloc room f s B P L C. unfold get_set. cbv zeta.
  rewrite (u16_id (f_pos f + 2)) by lia. rewrite (u16_id (f_pos f + 2 + 10)) by lia.
  destruct (rd16_ok (f_mem f) (f_pos f + 2 + 8) B) as (dl & -> & DL); [lia|lia|]. cbn [obind].
  set (dcp := u16 (f_pos f + 2 + 10 + dl)).
  assert (DP : 0 <= dcp < 65536) by (unfold dcp, u16; apply Z.mod_pos_bound; lia).
  destruct (Z.ltb_spec (f_len f) dcp); [eauto|]. destruct alloc; cbn [negb]; [|eauto].
  destruct (slice_ok (f_mem f) 6 6) as (src & -> & _); [lia|lia|lia|].
  destruct (slice_ok (f_mem f) 0 6) as (dst & -> & _); [lia|lia|lia|]. cbn [obind].
  destruct (negb (check_sam _ _) || negb (check_dest _ _)); [eauto|].
  destruct (slice_ok (f_mem f) (f_pos f + 2) 10) as (h & -> & _); [lia|lia|lia|].
  destruct (rd8_ok (f_mem f) (f_pos f + 2)) as (sid & ->); [lia|]. cbn [obind].
  destruct (sid =? 4).
  - destruct (rd16_ok (f_mem f) (f_pos f + 2 + 10 + 2) B) as (bl & -> & BL); [lia|lia|]. cbn [obind].
    rewrite (u16_id (f_pos f + 2 + 10 + 4)) by lia.
    destruct (set_loop_total (rounds f) k room (f_mem f) dcp (f_pos f + 2 + 10) (f_pos f + 2 + 10 + 4) bl []
                (demit DGot s)) as ([body s1] & ->); try assumption; try lia.
    { unfold rounds. lia. }
    cbn [obind]. eauto.
  - destruct (sid =? 3); [|cbn [obind]; eauto].
    destruct (get_loop_total (rounds f) k (cur (d_cm (demit DGot s))) (f_mem f) dcp (f_pos f + 2 + 10) [])
      as (body & ->); try lia.
    { unfold rounds. lia. }
    cbn [obind]. eauto.
Qed.

Lemma memeq_ok : forall n a b, (n <= length a)%nat -> (n <= length b)%nat -> exists r, memeq a b n = Ok r.
Proof.
  induction n as [|n IH]; intros [|x a] [|y b] A B; cbn [length memeq] in *; eauto; try lia.
  destruct (x =? y); [apply IH; lia|eauto].
Qed.
Lemma memeq_differ : forall a n b, (length a <= n)%nat -> (length a <= length b)%nat ->
  firstn (length a) b <> a -> memeq a b n = Ok false.
Proof.
  induction a as [|x a IH]; intros n b A B D; [contradiction D; reflexivity|].
  destruct n as [|n]; [cbn in A; lia|]. destruct b as [|y b]; [cbn in B; lia|].
  cbn [memeq length firstn] in *. destruct (Z.eqb_spec x y) as [->|]; [|reflexivity].
  apply IH; [lia|lia|]. congruence.
Qed.

(** [l] is somewhere in [m]. *)
Definition occurs (l m : list Z) : Prop := exists pre post, m = pre ++ l ++ post.

Lemma filter_block_total : forall k a names m o sb pos bl first filter alias,
  dcfg_ok k -> ase_ok a -> ~ occurs (a_name a) m -> 0 <= pos -> 0 <= bl ->
  pos + bl + 32 <= Z.of_nat (length m) ->
  exists r, filter_block k a names m o sb pos bl first filter alias = Ok r.
Proof.
  intros k a names m o sb pos bl first filter alias (K1 & _ & _ & K4 & _ & K6 & K7) (A1 & A2 & A3) NO P BL L.
  assert (SL : Z.of_nat (length (skipn (Z.to_nat pos) m)) = Z.of_nat (length m) - pos) by (rewrite skipn_length; lia).
  set (src := skipn (Z.to_nat pos) m) in *.
  assert (NM : exists r, (do e <- memeq (a_name a) src (Z.to_nat bl);
          if e then do z <- rd8 (a_name a) bl;
            if z =? 0 then Ok (Some (true, true, first || filter, alias)) else Ok (Some (true, false, filter, alias))
          else Ok (Some (true, false, filter, alias))) = Ok r).
  { destruct (Z_le_gt_dec bl 240).
    - destruct (memeq_ok (Z.to_nat bl) (a_name a) src) as (e & ->); [lia|lia|]. cbn [obind].
      destruct e; [|eauto]. destruct (rd8_ok (a_name a) bl) as (z & ->); [lia|]. cbn [obind].
      destruct (z =? 0); eauto.
    - rewrite memeq_differ; [cbn [obind]; eauto|lia|lia|].
      intros E. apply NO. exists (firstn (Z.to_nat pos) m), (skipn (length (a_name a)) src).
      rewrite <- E at 1. rewrite firstn_skipn. unfold src. symmetry. apply firstn_skipn. }
  assert (SM : forall n v, (n <= length v)%nat -> (n <= 32)%nat ->
     exists r, (if filter then do e <- memeq v src n;
          if e && (bl =? Z.of_nat n) then Ok (Some (true, true, filter, alias)) else Ok (Some (true, false, filter, alias))
        else Ok (Some (false, true, filter, alias))) = Ok r).
  { intros n v A B. destruct filter; [|eauto]. destruct (memeq_ok n v src) as (e & ->); [assumption|lia|]. cbn [obind].
    destruct (e && (bl =? Z.of_nat n)); eauto. }
  unfold filter_block. cbv zeta. fold src.
  destruct (get_value k a o sb) as [er|[n v]] eqn:GV.
  - destruct ((o =? o_prop) && (sb =? p_alias)); [|eauto].
    destruct (bl <? alias_size); [|eauto].
    destruct (slice_ok m pos bl) as (w & -> & _); [lia|lia|lia|]. cbn [obind].
    destruct (existsb _ names); eauto.
  - destruct (o =? o_all) eqn:OA; [destruct ((sb =? 255) && first && ((bl =? 2) || (bl =? 0))); eauto|].
    unfold get_value in GV. cbv zeta in GV. rewrite OA in GV.
    destruct (o =? o_ip).
    + destruct (sb =? i_mac); [injection GV as <- <-; cbn [orb]; apply SM; lia|].
      destruct (sb =? i_par); [injection GV as <- <-; cbn [orb]; apply SM; unfold host_suite; rewrite ?app_length; cbn [length le32]; lia|].
      cbn [orb]. eauto.
    + destruct (o =? o_prop); [|eauto].
      destruct (Z.eqb_spec sb p_name) as [EN|EN].
      * subst sb. cbn in GV. injection GV as <- <-. exact NM.
      * destruct (sb =? p_vendor); [injection GV as <- <-; apply SM; unfold product_size in *; lia|].
        destruct (sb =? p_id); [injection GV as <- <-; apply SM; lia|].
        destruct (sb =? p_role); [injection GV as <- <-; apply SM; cbn [length le16]; lia|].
        destruct (sb =? p_instance); [injection GV as <- <-; apply SM; cbn [length]; lia|].
        destruct (sb =? p_oem); [injection GV as <- <-; apply SM; lia|].
        destruct (sb =? p_gateway); [injection GV as <- <-; apply SM; cbn [length]; lia|discriminate].
Qed.

Lemma filter_loop_total : forall fuel k a names m dl hdr pos bl first filter alias,
  dcfg_ok k -> ase_ok a -> ~ occurs (a_name a) m ->
  bytes m -> 0 <= hdr -> pos = hdr + 4 -> pos <= 65100 -> 0 <= bl < 65536 ->
  dl + 32 <= Z.of_nat (length m) -> dl <= 65000 -> (Z.to_nat (dl + 4 - pos) < fuel)%nat ->
  exists r, filter_loop fuel k a names m dl hdr pos bl first filter alias = Ok r.
Proof.
  induction fuel as [|fuel IH]; intros k a names m dl hdr pos bl first filter alias K A NO B H0 P PB BL DL D F; [lia|].
  cbn [filter_loop]. destruct ((first || filter) && _) eqn:C; [|eauto].
  apply andb_prop in C as [_ C]. apply Z.leb_le in C.
  destruct (rd8_ok m hdr) as (o & ->); [lia|]. cbn [obind].
  destruct (rd8_ok m (hdr + 1)) as (sb & ->); [lia|]. cbn [obind].
  destruct (filter_block_total k a names m o sb pos bl first filter alias) as (r & ->); try assumption; [lia|lia|lia|].
  cbn [obind]. destruct r as [[[[ok mt] filter'] alias']|]; [|eauto]. cbv zeta.
  rewrite (u16_id (pos + bl)) by lia.
  set (p2 := if Z.odd (pos + bl) then u16 (pos + bl + 1) else pos + bl).
  assert (P2 : pos + bl <= p2 <= pos + bl + 1) by (unfold p2; destruct (Z.odd _); [rewrite u16_id by lia|]; lia).
  destruct (rd16_ok m (p2 + 2) B) as (b' & -> & B'); [lia|lia|]. cbn [obind].
  destruct (ok && mt); [|eauto].
  rewrite (u16_id (p2 + 4)) by lia. apply IH; try assumption; lia.
Qed.

(** The same for Identify.  Partial: besides the 32 bytes, the buffer must not contain
    the whole memory of the station name, with all the zeros behind it. *)
Theorem C77_identify_partial : forall k alloc room names f s, dcfg_ok k -> ase_ok (cur (d_cm s)) ->
  bytes (f_mem f) -> ~ occurs (a_name (cur (d_cm s))) (f_mem f) ->
  0 <= f_pos f <= f_len f -> f_len f <= 60000 -> f_len f + 32 <= Z.of_nat (length (f_mem f)) ->
  exists t, identify k alloc room names f s = Ok t.
Proof.
  intros k alloc room names f s K A B NO P L C. unfold identify. cbv zeta.
  rewrite (u16_id (f_pos f + 2)) by lia. rewrite (u16_id (f_pos f + 2 + 10)) by lia.
  destruct (rd16_ok (f_mem f) (f_pos f + 2 + 8) B) as (dl & -> & DL); [lia|lia|]. cbn [obind].
  set (dcp := u16 (f_pos f + 2 + 10 + dl)).
  assert (DP : 0 <= dcp < 65536) by (unfold dcp, u16; apply Z.mod_pos_bound; lia).
  destruct (Z.ltb_spec (f_len f) dcp); [eauto|]. destruct (d_wait s); [eauto|]. destruct alloc; cbn [negb]; [|eauto].
  destruct (slice_ok (f_mem f) 6 6) as (src & -> & _); [lia|lia|lia|]. cbn [obind].
  destruct (slice_ok (f_mem f) (f_pos f + 2) 10) as (h & -> & _); [lia|lia|lia|]. cbn [obind].
  destruct (rd16_ok (f_mem f) (f_pos f + 2 + 10 + 2) B) as (bl & -> & BL); [lia|lia|]. cbn [obind].
  rewrite (u16_id (f_pos f + 2 + 10 + 4)) by lia.
  destruct (filter_loop_total (rounds f) k (cur (d_cm (demit DGot s))) names (f_mem f) dcp (f_pos f + 2 + 10)
    (f_pos f + 2 + 10 + 4) bl true false None) as ([hit alias] & ->); try assumption; try lia.
  { unfold rounds. lia. }
  cbn [obind]. destruct hit; [|eauto].
  destruct (rd16_ok (f_mem f) (f_pos f + 2 + 6) B) as (fa & -> & _); [lia|lia|]. cbn [obind].
  destruct room; eauto.
Qed.

(** ** C78: answers are not requests *)

Definition loop_data : list Z := [5; 4; 0; 3; 5; 4; 2; 0].

Lemma tick_idle : forall k d s t, d_resp s = None -> dstep k (DTick d true) s = Ok t ->
  d_resp t = None /\ sent (d_tr t) = sent (d_tr s) /\ (d_sam t = mac_nil \/ d_sam t = d_sam s).
Proof.
  intros k d s t R D. apply tick_parts in D as (_ & _ & D1 & _ & D2 & _ & D3). rewrite R in D2, D3.
  split; [apply D2|]. split.
  - rewrite D3. destruct (d_led s) as [[x m]|]; [destruct (_ <=? _)|]; reflexivity.
  - rewrite D1. destruct (d_samt s); [destruct (_ <=? _)|]; auto.
Qed.

(** Two devices that are idle, and one frame with service type "response" that seems
    to come from the second one: they answer each other for ever, whatever the
    delays are. *)
Theorem C78_refuted : forall junk ds ka sa kb sb xid,
  dcfg_ok ka -> dcfg_ok kb -> (32 <= length junk)%nat -> bytes junk -> length xid = 4%nat ->
  d_sam sa = repeat 0 6 -> d_sam sb = repeat 0 6 -> d_resp sa = None -> d_resp sb = None ->
  bounces junk ds ka sa kb sb
    (k_mac ka ++ k_mac kb ++ [136; 146; 254; 253; 4; 1] ++ xid ++ [0; 0; 0; 8] ++ loop_data).
Proof.
  intros junk ds. 
  assert (G : forall ds ka sa kb sb xid,
    dcfg_ok ka -> dcfg_ok kb -> (32 <= length junk)%nat -> bytes junk -> length xid = 4%nat ->
    (d_sam sa = mac_nil \/ d_sam sa = k_mac kb) -> (d_sam sb = mac_nil \/ d_sam sb = k_mac ka) ->
    d_resp sa = None -> d_resp sb = None ->
    bounces junk ds ka sa kb sb
      (k_mac ka ++ k_mac kb ++ [136; 146; 254; 253; 4; 1] ++ xid ++ [0; 0; 0; 8] ++ loop_data)).
  { clear ds. induction ds as [|d ds IH]; intros ka sa kb sb xid KA KB JL JB XL SA SB RA RB; [constructor|].
    destruct (dstep ka (DTick d true) sa) as [s1| |] eqn:D1; try discriminate.
    destruct (dstep kb (DTick d true) sb) as [t1| |] eqn:D2; try discriminate.
    destruct (tick_idle ka d sa s1 RA D1) as (R1 & T1 & M1).
    destruct (tick_idle kb d sb t1 RB D2) as (R2 & T2 & M2).
    set (q := mkMsg (k_mac ka) (k_mac kb) [136; 146] [254; 253] 4 1 xid 0 loop_data junk 0).
    assert (OK : msg_ok q).
    { destruct KA as (KA & _), KB as (KB & _). unfold msg_ok, q. cbn [q_dest q_src q_mid q_fid q_xid q_junk q_pad q_delay].
      split; [assumption|]. split; [assumption|]. split; [reflexivity|]. split; [reflexivity|]. split; [assumption|].
      split; [assumption|]. split; [lia|]. split; [|split; [lia|assumption]].
      cbn [frame_of f_len q_data q_pad]. unfold msg_head.
      cbn [q_dest q_src q_mid q_fid q_sid q_type q_xid q_delay q_data].
      rewrite !app_length, KA, KB, XL. cbn. lia. }
    assert (FR : received (k_mac ka ++ k_mac kb ++ [136; 146; 254; 253; 4; 1] ++ xid ++ [0; 0; 0; 8] ++ loop_data) junk
      = frame_of q).
    { unfold received, frame_of, msg_head, q. cbn [q_dest q_src q_mid q_fid q_sid q_type q_xid q_delay q_data q_junk q_pad].
      f_equal.
      - rewrite <- !app_assoc. reflexivity.
      - rewrite Z.add_0_r. f_equal. rewrite !app_length. cbn. lia. }
    destruct (C72_partial ka true q [mkSb 5 4 1284 [2]] s1) as (t & E & S' & C' & L' & SM & ST & W' & RR & NW); try assumption.
    { reflexivity. }
    { reflexivity. }
    { constructor; [|constructor]. split; [cbn; lia|]. constructor; [unfold byte; lia|constructor]. }
    { cbn; lia. }
    { reflexivity. }
    { unfold may_ask. cbn [q_src q]. destruct M1 as [M1|M1]; rewrite M1; auto. }
    econstructor.
    - cbn [drun]. rewrite D1. cbn [obind dstep]. rewrite FR, E. cbn [obind]. reflexivity.
    - rewrite S'. rewrite T1. reflexivity.
    - cbn [drun]. rewrite D2. cbn [obind]. reflexivity.
    - assert (X : answer_frame q (k_mac ka) [254; 253] 1 (set_answer [mkSb 5 4 1284 [2]] (set_errors ka [mkSb 5 4 1284 [2]] (d_cm s1)))
        = k_mac kb ++ k_mac ka ++ [136; 146; 254; 253; 4; 1] ++ xid ++ [0; 0; 0; 8] ++ loop_data).
      { unfold answer_frame. cbn [q_src q q_sid q_xid]. reflexivity. }
      rewrite X. apply IH; try assumption.
      + destruct M2 as [M2|M2]; rewrite M2; auto.
      + rewrite SM. right. reflexivity.
      + rewrite RR. assumption. }
  intros ka sa kb sb xid KA KB JL JB XL SA SB RA RB. apply G; auto.
Qed.

(** ** Counterexamples and examples *)

Definition dk (b : Z) : cfg :=
  mkCfg false false (mkSuite 3232235786 4294967040 0) (97 :: repeat 0 240)
        [2; 0; 0; 0; 0; b] (112 :: 113 :: repeat 0 24) [0; 1; 0; 2] [0; 3; 0; 4].
Lemma dk_ok : forall b, 0 <= b < 256 -> dcfg_ok (dk b).
Proof.
  intros b B. split; [reflexivity|]. split; [reflexivity|].
  split; [repeat constructor; unfold byte; lia|].
  split; [reflexivity|]. split; [right; right; left; reflexivity|]. split; reflexivity.
Qed.
Definition s0 (b : Z) : dst := dinit (cinit (dk b) true None).
Definition tool : list Z := [2; 0; 0; 0; 0; 9].
Definition rq (dest : list Z) (sid : Z) (data junk : list Z) : msg :=
  mkMsg dest tool [136; 146] [254; 253] sid 0 [1; 2; 3; 4] 0 data junk 0.

Lemma rq_ok : forall sid data junk, (32 <= length junk)%nat -> Z.of_nat (length data) <= 60000 -> bytes junk ->
  msg_ok (rq (k_mac (dk 1)) sid data junk).
Proof.
  intros sid data junk L1 L2 B. unfold msg_ok, rq. cbn [q_dest q_src q_mid q_fid q_xid q_junk q_pad q_delay].
  repeat (split; [reflexivity|]). split; [assumption|]. split; [lia|]. split; [|split; [lia|assumption]].
  cbn [frame_of f_len q_data q_pad]. rewrite app_length.
  replace (length (msg_head _)) with 26%nat by reflexivity. lia.
Qed.
Lemma bytes_zero : forall n, bytes (repeat 0 n).
Proof. intros n. apply Forall_forall. intros x H. apply repeat_spec in H. subst x. unfold byte. lia. Qed.

Lemma bytes_b : forall l, forallb (fun b => (0 <=? b) && (b <? 256)) l = true -> bytes l.
Proof.
  intros l H. apply Forall_forall. intros x X. rewrite forallb_forall in H. specialize (H x X).
  apply andb_prop in H as [H1 H2]. unfold byte. lia.
Qed.

(** A request for another device; and one that announces more than there is. *)
Example C70_example : exists t,
  get_set (dk 1) true true (frame_of (rq [2; 0; 0; 0; 0; 7] 3 [2; 2] (repeat 0 40))) (s0 1) = Ok t /\ d_tr t <> [].
Proof. eexists. split; [vm_compute; reflexivity|]. vm_compute. discriminate. Qed.
Example C70_truncated_example :
  let f := mkFrame (repeat 0 24 ++ [5; 0] ++ repeat 0 100) 60 14 in
  rd16 (f_mem f) (f_pos f + 10) = Ok 1280 /\ f_len f < f_pos f + 12 + 1280 < 65536.
Proof. split; [reflexivity|]. cbn. lia. Qed.

(** A request takes the lock, another one a second later is ignored, and five seconds
    later it is answered. *)
Example C71_example :
  let a := DGetSet true true (frame_of (rq (k_mac (dk 1)) 3 [2; 2] (repeat 0 40))) in
  let b := DGetSet true true (frame_of (mkMsg (k_mac (dk 1)) [2; 0; 0; 0; 0; 8] [136; 146] [254; 253] 3 0 [1; 2; 3; 4]
                                          0 [2; 2] (repeat 0 40) 0)) in
  exists s t u, drun (dk 1) [a; DTick 1000000 true] (s0 1) = Ok s /\ length (sent (d_tr s)) = 1%nat /\
    drun (dk 1) [b] s = Ok t /\ length (sent (d_tr t)) = 1%nat /\
    drun (dk 1) [DTick 5000000 true; b] t = Ok u /\ length (sent (d_tr u)) = 2%nat.
Proof.
  intros a b. do 3 eexists. split; [vm_compute; reflexivity|]. split; [vm_compute; reflexivity|].
  split; [vm_compute; reflexivity|]. split; [vm_compute; reflexivity|].
  split; [vm_compute; reflexivity|]. vm_compute. reflexivity.
Qed.
Example C71_refuted_example : exists s1,
  get_set (dk 1) true false (frame_of (rq (k_mac (dk 1)) 3 [2; 2] (repeat 0 40))) (s0 1) = Ok s1 /\
  answered (s0 1) s1 /\ service_of (frame_of (rq (k_mac (dk 1)) 3 [2; 2] (repeat 0 40))) = Some 3.
Proof.
  eexists. split; [vm_compute; reflexivity|]. split; [|reflexivity]. eexists. vm_compute. reflexivity.
Qed.

(** A request with two changes, of which the second has a value that is not valid. *)
Example C72_example :
  let l := [mkSb 2 2 1 [98; 49]; mkSb 1 2 1 [1; 2; 3; 4; 255; 0; 255; 0; 0; 0; 0; 0]; mkSb 5 3 0 [1; 0]] in
  Forall sblock_ok l /\ set_errors (dk 1) l (d_cm (s0 1)) = [0; 3; 0] /\
  exists t, get_set (dk 1) true true (frame_of (rq (k_mac (dk 1)) 4 (enc_set l) (repeat 0 40))) (s0 1) = Ok t /\
    cstr (a_name (cur (d_cm t))) = [98; 49] /\ d_led t = Some (500000, 5).
Proof.
  split; [repeat constructor; unfold byte; cbn; lia|]. split; [vm_compute; reflexivity|].
  eexists. split; [vm_compute; reflexivity|]. split; vm_compute; reflexivity.
Qed.

(** A request of 185 blocks fits in a frame, but not the answer: some of the blocks
    are not answered. *)
Theorem C72_long_refuted :
  let l := repeat (mkSb 5 2 0 []) 185 in
  let q := rq (k_mac (dk 1)) 4 (enc_set l) (repeat 0 40) in
  msg_ok q /\ f_len (frame_of q) <= 1500 /\ Forall sblock_ok l /\
  exists t r, get_set (dk 1) true true (frame_of q) (s0 1) = Ok t /\ sent (d_tr t) = [r] /\
    Z.of_nat (length r) < Z.of_nat (length (answer_frame q (k_mac (dk 1)) [254; 253] 1 (set_answer l (repeat 0 185)))).
Proof.
  intros l q. split; [apply rq_ok; [cbn; lia|vm_compute; discriminate|apply bytes_zero]|].
  split; [vm_compute; discriminate|]. split.
  { apply Forall_forall. intros x H. apply repeat_spec in H. subst x. split; [cbn; lia|constructor]. }
  eexists. eexists. split; [vm_compute; reflexivity|]. split; [vm_compute; reflexivity|].
  vm_compute. reflexivity.
Qed.

(** The name and the IP parameters. *)
Example C73_example :
  get_answer (dk 1) (cur (d_cm (s0 1))) [(2, 2); (1, 2); (9, 9)] =
    [2; 2; 0; 3; 0; 0; 97; 0; 1; 2; 0; 14; 0; 1; 192; 168; 1; 10; 255; 255; 255; 0; 0; 0; 0; 0; 5; 4; 0; 3; 9; 9; 1; 0].
Proof. vm_compute. reflexivity. Qed.

Fixpoint parse (fuel : nat) (l : list Z) : bool :=
  match fuel with
  | O => false
  | S fuel =>
      match l with
      | [] => true
      | _ :: _ :: h :: lo :: r =>
          let n := Z.to_nat (h * 256 + lo) in
          let n := if Nat.odd n then S n else n in
          if (length r <? n)%nat then false else parse fuel (skipn n r)
      | _ => false
      end
  end.
Lemma parse_blocks : forall l, block_list l -> forall fuel, (length l < fuel)%nat -> parse fuel l = true.
Proof.
  induction 1 as [|o s v r B IH]; intros fuel F; (destruct fuel as [|fuel]; [lia|]); [reflexivity|].
  assert (E : exists p, even_pad ([o; s] ++ w16 (Z.of_nat (length v)) ++ v) = o :: s :: Z.of_nat (length v) / 256 ::
     Z.of_nat (length v) mod 256 :: v ++ p /\ length (v ++ p) = if Nat.odd (length v) then S (length v) else length v).
  { unfold even_pad. cbn [app w16 length]. replace (Nat.odd (S (S (S (S (length v)))))) with (Nat.odd (length v)).
    - destruct (Nat.odd (length v)); [exists [0]|exists []]; (split; [rewrite ?app_nil_r; reflexivity|]).
      + rewrite app_length. cbn. lia.
      + rewrite app_nil_r. reflexivity.
    - unfold Nat.odd. reflexivity. }
  destruct E as (p & E & L). rewrite E in F |- *. cbn [app parse].
  replace (Z.to_nat (Z.of_nat (length v) / 256 * 256 + Z.of_nat (length v) mod 256)) with (length v)
    by (rewrite Z.mul_comm, <- Z.div_mod by lia; lia).
  cbv zeta. rewrite <- L. rewrite app_length at 1.
  destruct (Nat.ltb_spec (length (v ++ p) + length r) (length (v ++ p))); [lia|].
  rewrite skipn_app, skipn_all, Nat.sub_diag. cbn [app skipn]. apply IH.
  cbn [app length] in F. rewrite app_length in F. lia.
Qed.

(** A device with a name of 240 characters is asked six times for its name: the
    answer announces a sixth block and does not contain it. *)
Definition long_name : list Z :=
  repeat 97 60 ++ [46] ++ repeat 97 60 ++ [46] ++ repeat 97 60 ++ [46] ++ repeat 97 57.
Theorem C73_refuted :
  let q := rq (k_mac (dk 1)) 3 (enc_get (repeat (2, 2) 6)) (repeat 0 40) in
  msg_ok q /\
  exists s t data, drun (dk 1) [DCmina (NSet [(RqName long_name, 1)])] (s0 1) = Ok s /\
    cstr (a_name (cur (d_cm s))) = long_name /\
    get_set (dk 1) true true (frame_of q) s = Ok t /\
    sent (d_tr t) = [answer_frame q (k_mac (dk 1)) [254; 253] 1 data] /\ ~ block_list data.
Proof.
  intros q. split; [apply rq_ok; [cbn; lia|vm_compute; discriminate|apply bytes_zero]|].
  set (nb := [2; 2; 0; 242; 0; 0] ++ long_name).
  eexists. eexists. exists (nb ++ nb ++ nb ++ nb ++ nb ++ [2; 2; 0; 242; 0; 0]).
  split; [vm_compute; reflexivity|]. split; [vm_compute; reflexivity|].
  split; [vm_compute; reflexivity|]. split; [vm_compute; reflexivity|].
  intros B. apply parse_blocks with (fuel := 1237%nat) in B; [|vm_compute; lia].
  vm_compute in B. discriminate.
Qed.

(** A search for the device's own name and MAC address. *)
Example C74_example :
  let l := [mkIb 2 2 [97]; mkIb 1 1 [2; 0; 0; 0; 0; 1]] in
  Forall plain_filter l /\ selected (dk 1) (cur (d_cm (s0 1))) [] l /\ ase_ok (cur (d_cm (s0 1))).
Proof.
  split; [|split].
  - constructor; [left; split; [cbn; intros [H|[]]; discriminate|reflexivity]|].
    constructor; [right; right; left; reflexivity|constructor].
  - split; [left; reflexivity|]. repeat constructor.
  - split; [reflexivity|]. split; [right; left; reflexivity|]. repeat split; vm_compute; congruence.
Qed.
Example C74_all_example : to_all [mkIb 255 255 []] /\
  exists t, identify (dk 1) true true [] (frame_of (rq (k_mac (dk 1)) 5 (enc_identify [mkIb 255 255 []]) (repeat 0 40))) (s0 1) = Ok t /\
    d_wait t = true.
Proof.
  split; [exists [], []; auto|]. eexists. split; [vm_compute; reflexivity|]. reflexivity.
Qed.

(** A search for the own name, IP parameters and product is not answered, though all
    of them are what the device itself reports; a request with no filter at all is
    answered; so is one for a name with zeros behind it. *)
Definition rqi (l : list iblock) : frame :=
  frame_of (rq (k_mac (dk 1)) 5 (enc_identify l) ([0; 0; 0; 5] ++ repeat 0 40)).
Theorem C74_refuted :
  (exists t, identify (dk 1) true true []
     (rqi [mkIb 2 2 [97]; mkIb 1 2 (suite_bytes (a_suite (cur (d_cm (s0 1)))))]) (s0 1) = Ok t /\ no_effect (s0 1) t) /\
  (exists t, identify (dk 1) true true []
     (rqi [mkIb 2 2 [97]; mkIb 2 1 (cstr (k_product (dk 1)))]) (s0 1) = Ok t /\ no_effect (s0 1) t) /\
  (exists t, identify (dk 1) true true [] (rqi []) (s0 1) = Ok t /\ d_wait t = true) /\
  (exists t, identify (dk 1) true true [] (rqi [mkIb 2 2 [97; 0; 0]]) (s0 1) = Ok t /\ d_wait t = true /\
     cstr (a_name (cur (d_cm (s0 1)))) <> [97; 0; 0]).
Proof.
  split; [|split; [|split]].
  - eexists. split; [vm_compute; reflexivity|]. exists [DFreeReq; DFree; DGot]. split; [reflexivity|]. auto.
  - eexists. split; [vm_compute; reflexivity|]. exists [DFreeReq; DFree; DGot]. split; [reflexivity|]. auto.
  - eexists. split; [vm_compute; reflexivity|]. reflexivity.
  - eexists. split; [vm_compute; reflexivity|]. split; [reflexivity|]. vm_compute. discriminate.
Qed.

(** A search with delay factor 100: the device with MAC ...:01 answers after 10 ms. *)
Example C75_example : exists s t,
  drun (dk 1) [DIdentify true true [] (frame_of (mkMsg [1; 14; 207; 0; 0; 0] tool [136; 146] [254; 254] 5 0 [1; 2; 3; 4] 100
     (enc_identify [mkIb 255 255 []]) (repeat 0 40) 0)); DTick 9999 true] (s0 1) = Ok s /\ sent (d_tr s) = [] /\
  (exists b, d_resp s = Some (10000, b)) /\ d_wait s = true /\
  drun (dk 1) [DTick 1 true] s = Ok t /\ length (sent (d_tr t)) = 1%nat.
Proof.
  do 2 eexists. split; [vm_compute; reflexivity|]. split; [vm_compute; reflexivity|].
  split; [eexists; vm_compute; reflexivity|]. split; [reflexivity|].
  split; [vm_compute; reflexivity|]. vm_compute. reflexivity.
Qed.

(** A request to flash, and 3.5 s. *)
Definition signal_rq : frame := frame_of (rq (k_mac (dk 1)) 4 (enc_set [mkSb 5 3 0 [1; 0]]) (repeat 0 40)).
Example C76_example : exists s,
  drun (dk 1) (DGetSet true true signal_rq :: repeat (DTick 500000 true) 7) (s0 1) = Ok s /\
  rev (leds (d_tr s)) = flashes.
Proof. eexists. split; vm_compute; reflexivity. Qed.

(** If the scheduler is full when the LED is switched on, it stays on until someone
    asks again; if it is full at the request, the request is confirmed but the LED is not
    switched at all. *)
Theorem C76_refuted :
  (exists s, drun (dk 1) [DGetSet true true signal_rq; DTick 500000 false] (s0 1) = Ok s /\
     leds (d_tr s) = [true] /\
     forall dts t, drun (dk 1) (map (fun d => DTick d true) dts) s = Ok t -> leds (d_tr t) = [true]) /\
  (exists s, drun (dk 1) [DGetSet true false signal_rq] (s0 1) = Ok s /\
     sent (d_tr s) = [answer_frame (rq (k_mac (dk 1)) 4 (enc_set [mkSb 5 3 0 [1; 0]]) (repeat 0 40)) (k_mac (dk 1))
       [254; 253] 1 (set_answer [mkSb 5 3 0 [1; 0]] [0])] /\
     forall dts t, drun (dk 1) (map (fun d => DTick d true) dts) s = Ok t -> leds (d_tr t) = []).
Proof.
  assert (G : forall dts s t, d_led s = None ->
    drun (dk 1) (map (fun d => DTick d true) dts) s = Ok t -> leds (d_tr t) = leds (d_tr s)).
  { induction dts as [|d dts IH]; intros s t L R; cbn [map drun] in R; [injection R as <-; reflexivity|].
    destruct (dstep (dk 1) (DTick d true) s) as [z| |] eqn:D; try discriminate. cbn [obind] in R.
    apply tick_parts in D as (_ & _ & _ & _ & _ & D2 & D3). rewrite L in D2, D3.
    rewrite (IH z t D2 R), D3, !leds_app, resp_leds. reflexivity. }
  split.
  - eexists. split; [vm_compute; reflexivity|]. split; [reflexivity|]. intros dts t R.
    apply G in R; [|reflexivity]. rewrite R. reflexivity.
  - eexists. split; [vm_compute; reflexivity|]. split; [vm_compute; reflexivity|]. intros dts t R.
    apply G in R; [|reflexivity]. rewrite R. reflexivity.
Qed.

Example C77_example :
  let f := mkFrame (k_mac (dk 1) ++ tool ++ [136; 146; 254; 253; 4; 0; 1; 2; 3; 4; 0; 0; 0; 9; 2; 2; 0; 0; 1; 2; 3; 4; 5] ++ repeat 255 40) 35 14 in
  0 <= f_pos f <= f_len f /\ f_len f + 32 <= Z.of_nat (length (f_mem f)) /\
  exists t, get_set (dk 1) true true f (s0 1) = Ok t /\ length (sent (d_tr t)) = 1%nat.
Proof.
  split; [cbn; lia|]. split; [cbn; lia|]. eexists. split; [vm_compute; reflexivity|]. reflexivity.
Qed.

(** A frame that fills its buffer of 1500 bytes, with a single block: the device looks
    for another block behind the buffer. *)
Theorem C77_refuted :
  let data := [5; 1; 5; 190] ++ repeat 0 1470 in
  let f := mkFrame (k_mac (dk 1) ++ tool ++ [136; 146; 254; 253; 4; 0; 1; 2; 3; 4; 0; 0] ++ w16 1474 ++ data) 1500 14 in
  length (f_mem f) = 1500%nat /\ bytes (f_mem f) /\ get_set (dk 1) true true f (s0 1) = Ub.
Proof.
  intros data f. split; [reflexivity|]. split; [|vm_compute; reflexivity].
  apply bytes_b. vm_compute. reflexivity.
Qed.

(** A block of length 0 at the end of the data: whether the request resets the device
    is up to what the buffer contained before. *)
Theorem C77_stale_refuted : exists f g t u,
  same_received f g /\
  get_set (dk 1) true true f (s0 1) = Ok t /\ get_set (dk 1) true true g (s0 1) = Ok u /\
  cstr (a_name (cur (d_cm t))) = [97] /\ cstr (a_name (cur (d_cm u))) = [].
Proof.
  exists (frame_of (rq (k_mac (dk 1)) 4 [5; 6; 0; 0] (repeat 0 40))),
         (frame_of (rq (k_mac (dk 1)) 4 [5; 6; 0; 0] ([0; 4] ++ repeat 0 40))).
  do 2 eexists. split; [repeat split; vm_compute; reflexivity|].
  split; [vm_compute; reflexivity|]. split; [vm_compute; reflexivity|].
  split; vm_compute; reflexivity.
Qed.

(** A search for a name of more than 241 bytes that starts with the memory of the name
    is compared with the memory behind the name. *)
Theorem C77_name_refuted :
  identify (dk 1) true true [] (frame_of (rq (k_mac (dk 1)) 5 (enc_identify [mkIb 2 2 ((97 :: repeat 0 240) ++ [5])]) (repeat 0 40)))
    (s0 1) = Ub.
Proof. vm_compute. reflexivity. Qed.

Example C78_example : forall n,
  bounces (repeat 0 40) (repeat 1000 n) (dk 1) (s0 1) (dk 2) (s0 2)
    (k_mac (dk 1) ++ k_mac (dk 2) ++ [136; 146; 254; 253; 4; 1] ++ [1; 2; 3; 4] ++ [0; 0; 0; 8] ++ loop_data).
Proof.
  intros n. apply C78_refuted; try reflexivity; try (apply dk_ok; lia); [cbn; lia|apply bytes_zero].
Qed.

Print Assumptions C76_flashes_partial.
Print Assumptions C76_complete_partial.
Print Assumptions C76_spacing.
Print Assumptions C76_refuted.
Print Assumptions C77_get_set_partial.
Print Assumptions C77_identify_partial.
Print Assumptions C77_refuted.
Print Assumptions C77_stale_refuted.
Print Assumptions C77_name_refuted.
Print Assumptions C78_refuted.
Print Assumptions C72_long_refuted.
Print Assumptions C73_refuted.
Print Assumptions C74_refuted.
