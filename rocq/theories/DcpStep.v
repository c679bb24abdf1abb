(** What an event does to the DCP state, for arbitrary frames. *)
From Coq Require Import List ZArith Arith Bool Lia.
From Verif Require Import Base CminaModel CminaSpec CminaInv DcpModel DcpSpec DcpInv DcpLoops.
Import ListNotations.
Local Open Scope Z_scope.

Lemma slice_val : forall m i n v, slice m i n = Ok v ->
  v = firstn (Z.to_nat n) (skipn (Z.to_nat i) m) /\ 0 <= i /\ 0 <= n /\ i + n <= Z.of_nat (length m).
Proof.
  intros m i n v E. unfold slice in E.
  destruct (Z.ltb_spec i 0); [discriminate|]. destruct (Z.ltb_spec n 0); [discriminate|].
  destruct (Z.ltb_spec (Z.of_nat (length m)) (i + n)); [discriminate|]. injection E as <-. auto.
Qed.
Lemma slice_ok : forall m i n, 0 <= i -> 0 <= n -> i + n <= Z.of_nat (length m) ->
  exists v, slice m i n = Ok v /\ Z.of_nat (length v) = n.
Proof.
  intros m i n A B C. unfold slice. destruct (Z.ltb_spec i 0); [lia|]. destruct (Z.ltb_spec n 0); [lia|].
  destruct (Z.ltb_spec (Z.of_nat (length m)) (i + n)); [lia|]. cbn [orb]. eexists. split; [reflexivity|].
  rewrite firstn_length, skipn_length. lia.
Qed.
Lemma rd16_ok : forall m i, bytes m -> 0 <= i -> i + 2 <= Z.of_nat (length m) ->
  exists v, rd16 m i = Ok v /\ 0 <= v < 65536.
Proof.
  intros m i B I' H. unfold rd16.
  destruct (rd8_ok m i) as (x & X); [lia|]. destruct (rd8_ok m (i + 1)) as (y & Y); [lia|].
  rewrite X, Y. cbn [obind]. eexists. split; [reflexivity|].
  apply rd8_byte in X, Y; try assumption. unfold byte in *. lia.
Qed.

(** ** Set requests *)

Definition led_new (room : bool) (s : dst) (led : option (Z * Z)) : Prop :=
  led = d_led s \/ (d_led s = None /\ room = true /\ led = Some (d_now s + 500000, 5)).
Definition same_rest (room : bool) (s t : dst) : Prop :=
  exists c led q, t = mkDst c (d_sam s) (d_samt s) (d_wait s) (d_resp s) led q (d_now s) (d_tr s) /\
    led_new room s led.

Lemma same_refl : forall room s, same_rest room s s.
Proof.
  intros room s. exists (d_cm s), (d_led s), (d_qual s). split; [destruct s; reflexivity|left; reflexivity].
Qed.
Lemma same_trans : forall room a b c, same_rest room a b -> same_rest room b c -> same_rest room a c.
Proof.
  intros room a b c (c1 & l1 & q1 & -> & L1) (c2 & l2 & q2 & -> & L2). cbn in *.
  exists c2, l2, q2. split; [reflexivity|].
  unfold led_new in *. cbn in *. destruct L1 as [->|(A & B & ->)].
  - exact L2.
  - destruct L2 as [->|(D & _)]; [right; auto|discriminate].
Qed.

Lemma set_req_same : forall k room m o s q vl pos d e t,
  set_req k room m o s q vl pos d = Ok (e, t) -> same_rest room d t.
Proof.
  intros k room m o s q vl pos d e t H. unfold set_req in H.
  assert (C : forall r, (let '(ok, e, c) := set_ind k r q (d_cm d) in
     Ok ((if ok then 0 else match e with Some e => e | None => 2 end), with_cm c d)) = Ok (e, t) ->
     same_rest room d t).
  { intros r Hr. destruct (set_ind k r q (d_cm d)) as [[ok e'] c]. injection Hr as _ <-.
    exists c, (d_led d), (d_qual d). split; [reflexivity|left; reflexivity]. }
  assert (R : forall x, Ok (x, d) = Ok (e, t) -> same_rest room d t)
    by (intros x Hx; injection Hx as _ <-; apply same_refl).
  destruct (o =? o_ip).
  { destruct ((s =? i_par) || (s =? i_suite)); [|eauto]. destruct (vl =? 12); [|eauto].
    destruct (slice m pos _); try discriminate. cbn [obind] in H. eapply C; exact H. }
  destruct (o =? o_prop).
  { destruct (s =? p_name); [|eauto]. destruct (vl <? Z.of_nat name_size); [|exact (C (RqName (repeat 0 name_size)) H)].
    destruct (slice m pos vl); try discriminate. cbn [obind] in H. eapply C; exact H. }
  destruct (o =? o_dhcp); [eauto|].
  destruct (o =? o_control); [|eauto].
  destruct (s =? c_start).
  { injection H as _ <-. exists (d_cm d), (d_led d), q. split; [reflexivity|left; reflexivity]. }
  destruct (s =? c_stop); [eauto|].
  destruct (s =? c_signal).
  { injection H as _ <-. unfold trigger_led, led_half.
    destruct (d_led d) as [x|] eqn:L; [apply same_refl|]. destruct room; [|apply same_refl].
    exists (d_cm d), (Some (d_now d + 500000, 5)), (d_qual d). split; [reflexivity|]. right. auto. }
  destruct (s =? c_factory); [eapply C; exact H|].
  destruct (s =? c_reset); [eapply C; exact H|]. eauto.
Qed.

Lemma set_req_total : forall k room m o s q vl pos d, 0 <= pos -> 0 <= vl ->
  (65534 <= vl \/ pos + vl + 16 <= Z.of_nat (length m)) ->
  exists e t, set_req k room m o s q vl pos d = Ok (e, t).
Proof.
  intros k room m o s q vl pos d P V B. unfold set_req.
  assert (C : forall r, exists e t, (let '(ok, e, c) := set_ind k r q (d_cm d) in
     Ok ((if ok then 0 else match e with Some e => e | None => 2 end), with_cm c d)) = Ok (e, t)).
  { intros r. destruct (set_ind k r q (d_cm d)) as [[ok e'] c]. eauto. }
  destruct (o =? o_ip).
  { destruct ((s =? i_par) || (s =? i_suite)); [|eauto].
    destruct (Z.eqb_spec vl 12) as [E|E]; [|eauto].
    destruct (slice_ok m pos (if s =? i_par then 12 else 28)) as (v & -> & _);
      [assumption|destruct (s =? i_par); lia|destruct (s =? i_par); lia|]. cbn [obind]. apply C. }
  destruct (o =? o_prop).
  { destruct (s =? p_name); [|eauto]. destruct (Z.ltb_spec vl (Z.of_nat name_size)) as [L|L]; [|apply C].
    unfold name_size in L.
    destruct (slice_ok m pos vl) as (v & -> & _); [assumption|assumption|lia|]. cbn [obind]. apply C. }
  destruct (o =? o_dhcp); [eauto|].
  destruct (o =? o_control); [|eauto].
  destruct (s =? c_start); [eauto|]. destruct (s =? c_stop); [eauto|]. destruct (s =? c_signal); [eauto|].
  destruct (s =? c_factory); [apply C|]. destruct (s =? c_reset); [apply C|]. eauto.
Qed.

Lemma set_loop_same : forall fuel k room m dl hdr pos bl out s body t,
  (length out <= 1474)%nat ->
  set_loop fuel k room m dl hdr pos bl out s = Ok (body, t) ->
  same_rest room s t /\ (length body <= 1474)%nat.
Proof.
  induction fuel as [|fuel IH]; intros k room m dl hdr pos bl out s body t L H; [discriminate|].
  cbn [set_loop] in H. destruct (pos + bl <=? dl).
  - destruct (rd16 m pos); try discriminate. cbn [obind] in H.
    destruct (rd8 m hdr); try discriminate. cbn [obind] in H.
    destruct (rd8 m (hdr + 1)); try discriminate. cbn [obind] in H.
    destruct (set_req _ _ _ _ _ _ _ _ _) as [[e s']| |] eqn:R; try discriminate. cbn [obind] in H.
    cbv zeta in H.
    destruct (rd16 m (_ + 2)); try discriminate. cbn [obind] in H.
    apply IH in H; [|apply put_block_len; assumption]. destruct H as [H1 H2]. split; [|assumption].
    eapply same_trans; [eapply set_req_same; exact R|exact H1].
  - injection H as <- <-. split; [apply same_refl|assumption].
Qed.

Lemma set_loop_total : forall fuel k room m dl hdr pos bl out s,
  bytes m -> 0 <= hdr -> pos = hdr + 4 -> pos <= 65100 -> 0 <= bl < 65536 ->
  dl + 32 <= Z.of_nat (length m) -> dl <= 65000 -> (Z.to_nat (dl + 4 - pos) < fuel)%nat ->
  exists r, set_loop fuel k room m dl hdr pos bl out s = Ok r.
Proof.
  induction fuel as [|fuel IH]; intros k room m dl hdr pos bl out s B H0 P PB BL DL D F; [lia|].
  cbn [set_loop]. destruct (Z.leb_spec (pos + bl) dl); [|eauto].
  destruct (rd16_ok m pos B) as (q & -> & Q); [lia|lia|]. cbn [obind].
  destruct (rd8_ok m hdr) as (o & ->); [lia|]. cbn [obind].
  destruct (rd8_ok m (hdr + 1)) as (sb & ->); [lia|]. cbn [obind].
  rewrite (u16_id (pos + 2)) by lia. cbv zeta.
  assert (BL' : u16 (bl - 2) = bl - 2 \/ u16 (bl - 2) = bl + 65534 /\ bl < 2).
  { destruct (Z_le_gt_dec 2 bl); [left; apply u16_id; lia|right]. split; [|lia].
    unfold u16. replace (bl - 2) with (bl + 65534 + (-1) * 65536) by lia.
    rewrite Z.mod_add by lia. apply Z.mod_small. lia. }
  assert (BR := u16_range (bl - 2)).
  destruct (set_req_total k room m o sb q (u16 (bl - 2)) (pos + 2) s) as (e & t & ->); [lia|lia|lia|].
  cbn [obind].
  set (p1 := u16 (pos + 2 + u16 (bl - 2))).
  assert (P1 : p1 = pos + bl).
  { unfold p1. destruct BL' as [->|[-> ?]]; [rewrite u16_id; lia|].
    unfold u16. replace (pos + 2 + (bl + 65534)) with (pos + bl + 1 * 65536) by lia.
    rewrite Z.mod_add by lia. apply Z.mod_small. lia. }
  set (p2 := if Z.odd p1 then u16 (p1 + 1) else p1).
  assert (P2 : p1 <= p2 <= p1 + 1).
  { unfold p2. destruct (Z.odd p1); [rewrite u16_id by lia|]; lia. }
  destruct (rd16_ok m (p2 + 2) B) as (b' & -> & B'); [lia|lia|]. cbn [obind].
  apply IH; try assumption; try lia.
  - rewrite u16_id by lia. lia.
  - rewrite u16_id by lia. lia.
  - rewrite u16_id by lia. lia.
Qed.

Lemma get_loop_total : forall fuel k a m dl pos out,
  0 <= pos <= 65100 -> dl <= Z.of_nat (length m) -> dl <= 65000 -> (Z.to_nat (dl - pos) < fuel)%nat ->
  exists r, get_loop fuel k a m dl pos out = Ok r.
Proof.
  induction fuel as [|fuel IH]; intros k a m dl pos out P L D F; [lia|].
  cbn [get_loop]. destruct (Z.leb_spec (pos + 2) dl); [|eauto].
  destruct (rd8_ok m pos) as (o & ->); [lia|]. cbn [obind].
  destruct (rd8_ok m (pos + 1)) as (s & ->); [lia|]. cbn [obind].
  rewrite u16_id by lia. apply IH; try assumption; lia.
Qed.

(** ** Get and Set *)

Lemma list_eqb_eq : forall a b, list_eqb a b = true <-> a = b.
Proof. intros a b. unfold list_eqb. destruct (list_eq_dec Z.eq_dec a b); split; congruence. Qed.

Lemma odd_land : forall x, (Z.land x 1 =? 0) = negb (Z.odd x).
Proof. exact land1. Qed.

Definition lock_after (room : bool) (f : frame) (s : dst) (sam : list Z) (samt : option Z) : Prop :=
  (sam = src_of f /\ samt = if room then Some (d_now s + 3000000) else None).

Definition accepted (k : cfg) (room : bool) (f : frame) (s t : dst) : Prop :=
  dest_of f = k_mac k /\ (d_sam s = mac_nil \/ d_sam s = src_of f) /\
  exists c sam samt led q r,
    t = mkDst c sam samt (d_wait s) (d_resp s) led q (d_now s) (DFree :: DFreeReq :: DSend r :: DGot :: d_tr s) /\
    led_new room s led /\ (length r <= 1500)%nat /\
    (lock_after room f s sam samt \/ (sam = d_sam s /\ samt = d_samt s)) /\
    (0 <= f_pos f <= 65000 -> service_of f = Some 3 \/ service_of f = Some 4 -> lock_after room f s sam samt).

Lemma no_effect_free : forall s, no_effect s (demit DFreeReq s).
Proof. intros s. exists [DFreeReq]. split; [reflexivity|]. auto. Qed.
Lemma no_effect_both : forall s, no_effect s (demit DFree (demit DFreeReq (demit DGot s))).
Proof. intros s. exists [DFree; DFreeReq; DGot]. split; [reflexivity|]. auto. Qed.
Lemma no_effect_both' : forall s, no_effect s (demit DFreeReq (demit DFree (demit DGot s))).
Proof. intros s. exists [DFreeReq; DFree; DGot]. split; [reflexivity|]. auto. Qed.

Lemma response_len : forall a b f t h body, length a = 6%nat ->
  (length (response a b f t h body) <= 20 + length b + length body)%nat.
Proof.
  intros a b f t h body H. unfold response. rewrite !app_length. cbn [length be16].
  rewrite (firstn_length 1), (firstn_length 4). lia.
Qed.

Lemma get_set_cases : forall k alloc room f s t, get_set k alloc room f s = Ok t ->
  no_effect s t \/ accepted k room f s t.
Proof.
  intros k alloc room f s t H. unfold get_set in H. cbv zeta in H.
  destruct (rd16 (f_mem f) _) as [dlen| |]; try discriminate. cbn [obind] in H.
  destruct (f_len f <? _); [injection H as <-; left; apply no_effect_free|].
  destruct alloc; cbn [negb] in H; [|injection H as <-; left; apply no_effect_free].
  destruct (slice (f_mem f) 6 6) as [src| |] eqn:Es; try discriminate. cbn [obind] in H.
  destruct (slice (f_mem f) 0 6) as [dest| |] eqn:Ed; try discriminate. cbn [obind] in H.
  destruct (check_sam (demit DGot s) src) eqn:SA; cbn [negb orb] in H;
    [|injection H as <-; left; apply no_effect_both].
  destruct (check_dest (k_mac k) dest) eqn:DE; cbn [negb] in H;
    [|injection H as <-; left; apply no_effect_both].
  right.
  apply slice_val in Es as (-> & _ & _ & L6). apply slice_val in Ed as (-> & _).
  change (Z.to_nat 6) with 6%nat in *. change (Z.to_nat 0) with 0%nat in *.
  cbn [skipn] in DE. fold (src_of f) in *. fold (dest_of f) in *.
  assert (LS : length (src_of f) = 6%nat)
    by (unfold src_of; rewrite firstn_length, skipn_length; lia).
  apply andb_prop in DE as [_ DE]. apply list_eqb_eq in DE.
  unfold check_sam in SA. apply orb_prop in SA. cbn [demit d_sam] in SA. rewrite !list_eqb_eq in SA.
  split; [assumption|]. split; [assumption|].
  destruct (slice (f_mem f) _ 10) as [h| |]; try discriminate. cbn [obind] in H.
  destruct (rd8 (f_mem f) (u16 (f_pos f + 2))) as [sid| |] eqn:SID; try discriminate. cbn [obind] in H.
  assert (SV : 0 <= f_pos f <= 65000 -> service_of f = Some sid).
  { intros B. unfold rd8 in SID. rewrite u16_id in SID by lia.
    destruct (Z.ltb_spec (f_pos f + 2) 0); [lia|]. unfold service_of.
    destruct (nth_error (f_mem f) (Z.to_nat (f_pos f + 2))); congruence. }
  destruct (sid =? 4) eqn:E4.
  - destruct (rd16 (f_mem f) _) as [bl| |]; try discriminate. cbn [obind] in H.
    destruct (set_loop _ _ _ _ _ _ _ _ _ _) as [[body s1]| |] eqn:SL; try discriminate. cbn [obind] in H.
    apply set_loop_same in SL as [(c & led & q & -> & LN) LB]; [|cbn [length]; lia].
    injection H as <-. cbn [with_cm with_sam restart_sam demit d_cm d_sam d_samt d_wait d_resp d_led d_qual d_now d_tr].
    do 6 eexists. split; [reflexivity|]. split; [exact LN|]. split.
    + assert (X := response_len (src_of f) (k_mac k) get_set_id 1 h body LS).
      assert (length (k_mac k) <= 6)%nat by (rewrite <- DE; unfold dest_of; rewrite firstn_length; lia). lia.
    + split; [left|intros _ _]; split; reflexivity.
  - destruct (sid =? 3) eqn:E3.
    + destruct (get_loop _ _ _ _ _ _ _) as [body| |] eqn:GL; try discriminate. cbn [obind] in H.
      apply get_loop_len in GL; [|cbn [length]; lia].
      injection H as <-. cbn [with_cm with_sam restart_sam demit d_cm d_sam d_samt d_wait d_resp d_led d_qual d_now d_tr].
      do 6 eexists. split; [reflexivity|]. split; [left; reflexivity|]. split.
      * assert (X := response_len (src_of f) (k_mac k) get_set_id 1 h body LS).
        assert (length (k_mac k) <= 6)%nat by (rewrite <- DE; unfold dest_of; rewrite firstn_length; lia). lia.
      * split; [left|intros _ _]; split; reflexivity.
    + cbn [obind] in H. injection H as <-.
      cbn [with_cm with_sam restart_sam demit d_cm d_sam d_samt d_wait d_resp d_led d_qual d_now d_tr].
      do 6 eexists. split; [reflexivity|]. split; [left; reflexivity|]. split.
      * assert (X := response_len (src_of f) (k_mac k) get_set_id 5 h [] LS).
        assert (length (k_mac k) <= 6)%nat by (rewrite <- DE; unfold dest_of; rewrite firstn_length; lia).
        cbn [length] in X. lia.
      * split; [right; split; reflexivity|].
        intros B S'. rewrite (SV B) in S'. apply Z.eqb_neq in E3, E4. destruct S' as [S'|S']; congruence.
Qed.

(** ** Identify *)

Definition scheduled (k : cfg) (room : bool) (s t : dst) : Prop :=
  room = true /\ d_wait s = false /\
  exists due b, t = mkDst (d_cm s) (d_sam s) (d_samt s) true (Some (due, b)) (d_led s) (d_qual s) (d_now s)
                          (DFreeReq :: DGot :: d_tr s) /\
    d_now s <= due < d_now s + 64000000 /\ (length (k_mac k) = 6 -> length b <= 1500)%nat.

Lemma delay_range : forall mac factor, 0 <= factor -> 0 <= response_delay mac factor < 64000000.
Proof.
  intros mac factor F. unfold response_delay.
  destruct (Z.eqb_spec factor 0); cbn [orb]; [lia|].
  destruct (Z.ltb_spec 6400 factor); [lia|].
  assert (A := Z.mod_pos_bound (u16 (nth 4 mac 0 * 256 + nth 5 mac 0)) factor). lia.
Qed.

Lemma identify_len : forall k a alias, (length (identify_body k a alias) <= 1474)%nat.
Proof.
  intros k a alias. unfold identify_body.
  assert (G : forall l out, (length out <= 1474)%nat ->
    (length (fold_left (fun out o => get_req k a true alias (fst o) (snd o) out) l out) <= 1474)%nat).
  { induction l as [|o l IH]; intros out H; [assumption|]. cbn [fold_left]. apply IH. apply get_req_len. assumption. }
  apply G. cbn [length]. lia.
Qed.

Lemma rd16_val : forall m i v, bytes m -> rd16 m i = Ok v -> 0 <= v.
Proof.
  intros m i v B H. unfold rd16 in H. destruct (rd8 m i) eqn:X; try discriminate. cbn [obind] in H.
  destruct (rd8 m (i + 1)) eqn:Y; try discriminate. cbn [obind] in H. injection H as <-.
  apply rd8_byte in X, Y; try assumption. unfold byte in *. lia.
Qed.

Lemma identify_cases : forall k alloc room names f s t, bytes (f_mem f) ->
  identify k alloc room names f s = Ok t -> no_effect s t \/ scheduled k room s t.
Proof.
  intros k alloc room names f s t B H. unfold identify in H. cbv zeta in H.
  destruct (rd16 (f_mem f) _) as [dlen| |]; try discriminate. cbn [obind] in H.
  destruct (f_len f <? _); [injection H as <-; left; apply no_effect_free|].
  destruct (d_wait s) eqn:W; [injection H as <-; left; apply no_effect_free|].
  destruct alloc; cbn [negb] in H; [|injection H as <-; left; apply no_effect_free].
  destruct (slice (f_mem f) 6 6) as [src| |] eqn:Es; try discriminate. cbn [obind] in H.
  destruct (slice (f_mem f) _ 10) as [h| |]; try discriminate. cbn [obind] in H.
  destruct (rd16 (f_mem f) _) as [bl| |]; try discriminate. cbn [obind] in H.
  destruct (filter_loop _ _ _ _ _ _ _ _ _ _ _ _) as [[hit alias]| |]; try discriminate. cbn [obind] in H.
  destruct hit; [|injection H as <-; left; apply no_effect_both'].
  destruct (rd16 (f_mem f) _) as [factor| |] eqn:FA; try discriminate. cbn [obind] in H.
  destruct room; [|injection H as <-; left; apply no_effect_both'].
  injection H as <-. right. split; [reflexivity|]. split; [assumption|].
  do 2 eexists. split; [reflexivity|].
  cbn [with_cm with_sam with_resp demit d_cm d_sam d_samt d_wait d_resp d_led d_qual d_now d_tr].
  apply rd16_val in FA; [|assumption].
  assert (R := delay_range (k_mac k) factor FA). split; [lia|].
  intros K6. apply slice_val in Es as (-> & _ & _ & L6).
  assert (X := response_len (firstn (Z.to_nat 6) (skipn (Z.to_nat 6) (f_mem f))) (k_mac k) id_res_id 1 h
                 (identify_body k (cur (d_cm s)) alias)).
  assert (Y := identify_len k (cur (d_cm s)) alias).
  rewrite firstn_length, skipn_length in X. specialize (X ltac:(lia)).
  cbn [demit d_cm]. lia.
Qed.
