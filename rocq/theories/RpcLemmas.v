(** Lemmas about the RPC header, the tables and the sessions. *)
From Coq Require Import List ZArith Arith Bool Lia.
From Verif Require Import Base CpmModel CpmProps PpmModel PpmProps BlockModel BlockReadLemmas BlockReadProps BlockWriteProps RpcModel.
Import ListNotations.
Local Open Scope Z_scope.

(** * Lists *)
Lemma put_nth_length : forall A (l : list A) i v, length (put_nth l i v) = length l.
Proof. intros A l. induction l as [|x l IH]; intros [|i] v; cbn; congruence. Qed.

Lemma nth_put_nth : forall A (l : list A) i v d j,
  nth j (put_nth l i v) d = if Nat.eqb j i && (i <? length l)%nat then v else nth j l d.
Proof.
  intros A l. induction l as [|x l IH]; intros [|i] v d [|j]; cbn; try reflexivity.
  - destruct (j =? i)%nat; reflexivity.
  - rewrite IH. destruct (Nat.eqb j i); cbn; [|reflexivity].
    destruct (Nat.ltb_spec i (length l)), (Nat.ltb_spec (S i) (S (length l))); try reflexivity; lia.
Qed.

Lemma put_nth_forall : forall A (P : A -> Prop) l i v, Forall P l -> P v -> Forall P (put_nth l i v).
Proof. intros A P l. induction l as [|x l IH]; intros [|i] v H V; cbn; inversion H; subst; constructor; auto. Qed.

Lemma put_nth_twice : forall A (l : list A) i v w, put_nth (put_nth l i v) i w = put_nth l i w.
Proof. intros A l. induction l as [|x l IH]; intros [|i] v w; cbn; try reflexivity. rewrite IH. reflexivity. Qed.

Lemma put_nth_same : forall A (l : list A) i d, put_nth l i (nth i l d) = l.
Proof. intros A l. induction l as [|x l IH]; intros [|i] d; cbn; try reflexivity. rewrite IH. reflexivity. Qed.

(** * The header *)

(** Headers that the parser delivers. *)
Definition hdr_in (h : rpch) : Prop :=
  byte (h_version h) /\ 0 <= h_ptype h < 32 /\
  flag (h_last h) /\ flag (h_frag h) /\ flag (h_nofack h) /\ flag (h_maybe h) /\ flag (h_idem h) /\ flag (h_bcast h) /\
  flag (h_cancel h) /\ h_float h = 0 /\ byte (h_reserved h) /\ byte (h_serial_high h) /\
  uuid_ok (h_object h) /\ uuid_ok (h_interface h) /\ uuid_ok (h_activity h) /\
  0 <= h_boot h < 4294967296 /\ 0 <= h_ifver h < 4294967296 /\ 0 <= h_seq h < 4294967296 /\
  0 <= h_opnum h < 65536 /\ 0 <= h_ifhint h < 65536 /\ 0 <= h_acthint h < 65536 /\ 0 <= h_bodylen h < 65536 /\
  0 <= h_fragnmb h < 65536 /\ byte (h_auth h) /\ byte (h_serial_low h).

Lemma safe_uuid_ok : forall st old, length old = 8%nat -> safe st (get_uuid old) uuid_ok.
Proof.
  intros st old L. unfold get_uuid.
  eapply safe_bind; [apply safe_u32|intros a Ha]. eapply safe_bind; [apply safe_u16|intros b Hb].
  eapply safe_bind; [apply safe_u16|intros c Hc]. eapply safe_bind; [apply (safe_mem_into st 8 old 8); [lia|rewrite L; reflexivity]|intros d Hd].
  apply safe_ret. cbn beta in Hd. unfold uuid_ok, u16v, u32v in *. cbn [u_d1 u_d2 u_d3 u_d4].
  split; [exact Ha|]. split; [exact Hb|]. split; [exact Hc|]. lia.
Qed.

Lemma get_bits1_flag : forall x p, 0 <= p < 32 -> flag (get_bits x p 1).
Proof.
  intros x p P. unfold get_bits, flag. cbn [Z.eqb].
  destruct (Z.ltb_spec 32 (p + 1)); [lia|]. change (1 =? 32)%positive with false. rewrite andb_false_r.
  change (Z.shiftl 1 1 - 1) with (Z.ones 1). rewrite Z.land_ones by lia.
  pose proof (Z.mod_pos_bound (Z.shiftr x p) (2 ^ 1) ltac:(reflexivity)) as B. change (2 ^ 1) with 2 in *.
  set (y := Z.shiftr x p mod 2) in *. clearbody y. lia.
Qed.

Lemma safe_rpc_header_in : forall st a b c, length a = 8%nat -> length b = 8%nat -> length c = 8%nat ->
  safe st (get_dce_rpc_header a b c) hdr_in.
Proof.
  intros st a b c La Lb Lc. unfold get_dce_rpc_header.
  do 5 sstep. cbn zeta. do 4 sstep.
  eapply safe_bind; [apply safe_uuid_ok; assumption|intros u1 U1]. eapply safe_bind; [apply safe_uuid_ok; assumption|intros u2 U2].
  eapply safe_bind; [apply safe_uuid_ok; assumption|intros u3 U3].
  do 11 sstep. unfold hdr_in. cbn [h_version h_ptype h_last h_frag h_nofack h_maybe h_idem h_bcast h_cancel h_be h_float h_reserved h_serial_high h_object h_interface h_activity h_boot h_ifver h_seq h_opnum h_ifhint h_acthint h_bodylen h_fragnmb h_auth h_serial_low]. unfold u16v, u32v in *.
  assert (PT : 0 <= Z.land a1 31 < 32).
  { change 31 with (Z.ones 5). rewrite Z.land_ones by lia. apply Z.mod_pos_bound. lia. }
  repeat match goal with |- _ /\ _ => split end; try (apply get_bits1_flag; lia); try assumption; try reflexivity; try tauto; lia.
Qed.

Definition hbytes1 (h : rpch) : list Z :=
  let be := h_be h in
  [h_version h] ++ [h_ptype h] ++ [rpc_flags h] ++ [0] ++ [if be then 0 else 16] ++ [0] ++ [h_reserved h] ++ [h_serial_high h] ++
  euuid be (h_object h) ++ euuid be (h_interface h) ++ euuid be (h_activity h) ++ e32 be (h_boot h) ++ e32 be (h_ifver h) ++
  e32 be (h_seq h) ++ e16 be (h_opnum h) ++ e16 be (h_ifhint h) ++ e16 be (h_acthint h).
Definition hbytes2 (h : rpch) : list Z := e16 (h_be h) (h_fragnmb h) ++ [h_auth h] ++ [h_serial_low h].
Definition hbytes (h : rpch) : list Z := hbytes1 h ++ e16 (h_be h) (h_bodylen h) ++ hbytes2 h.

Lemma hbytes1_length : forall h, rpch_ok h -> length (hbytes1 h) = 74%nat.
Proof.
  intros h H. unfold hbytes1. rewrite !app_length, !euuid_length, !e32_length, !e16_length by apply H. reflexivity.
Qed.
Lemma hbytes2_length : forall h, length (hbytes2 h) = 4%nat.
Proof. intros h. unfold hbytes2. rewrite !app_length, e16_length. reflexivity. Qed.
Lemma hbytes_length : forall h, rpch_ok h -> length (hbytes h) = 80%nat.
Proof. intros h H. unfold hbytes. rewrite !app_length, hbytes1_length, hbytes2_length, e16_length by exact H. reflexivity. Qed.

Lemma enc_hdr_head : forall h, rpch_ok h -> enc (hdr_head h) (hbytes1 h).
Proof.
  intros h H. destruct H as (V & PT & F1 & F2 & F3 & F4 & F5 & F6 & Hc & Hf & Hr & Hs & U1 & U2 & U3 & Hb & Hi & Hq & Ho & Hih & Hah & Hbl & Hfn & Hau & Hsl).
  unfold hdr_head, hbytes1. cbn zeta. rewrite Hf. set (be := h_be h) in *.
  assert (EF : put_bits (if h_bcast h =? 0 then 0 else 1) 1 6 (put_bits (if h_idem h =? 0 then 0 else 1) 1 5
    (put_bits (if h_maybe h =? 0 then 0 else 1) 1 4 (put_bits (if h_nofack h =? 0 then 0 else 1) 1 3
    (put_bits (if h_frag h =? 0 then 0 else 1) 1 2 (put_bits (if h_last h =? 0 then 0 else 1) 1 1 0))))) mod 256 = rpc_flags h).
  { unfold rpc_flags. destruct F1 as [->| ->], F2 as [->| ->], F3 as [->| ->], F4 as [->| ->], F5 as [->| ->], F6 as [->| ->]; reflexivity. }
  rewrite EF. clear EF.
  set (dr := if be then 0 else 16).
  assert (ED : put_bits (if be then 0 else 1) 4 4 0 mod 256 = dr) by (unfold dr; destruct be; reflexivity).
  rewrite ED. clear ED.
  assert (BD : byte dr) by (unfold dr, byte; destruct be; lia).
  assert (BF : byte (rpc_flags h)) by (unfold rpc_flags, byte, flag in *; lia).
  repeat (apply enc_seq; [enc1|]). enc1.
Qed.

Lemma enc_hdr_tail : forall h, rpch_ok h -> enc (hdr_tail h) (e16 (h_be h) (h_bodylen h) ++ hbytes2 h).
Proof.
  intros h H. destruct H as (V & PT & F1 & F2 & F3 & F4 & F5 & F6 & Hc & Hf & Hr & Hs & U1 & U2 & U3 & Hb & Hi & Hq & Ho & Hih & Hah & Hbl & Hfn & Hau & Hsl).
  unfold hdr_tail, hbytes2. repeat (apply enc_seq; [enc1|]). enc1.
Qed.

(** The header as written by the model is the one of BlockModel.v. *)
Lemma put_header_ok : forall h b len, rpch_ok h -> 80 <= len <= Z.of_nat (length b) -> len < 65536 ->
  put_header h b len 0 = Ok (hbytes h ++ skipn 80 b, 80, 74).
Proof.
  intros h b len H L N. pose proof (hbytes1_length h H) as L1. pose proof (hbytes2_length h) as L2.
  unfold put_header. rewrite (enc_hdr_head h H) by lia. cbn [obind].
  assert (L3 : length (e16 (h_be h) (h_bodylen h) ++ hbytes2 h) = 6%nat) by (rewrite app_length, e16_length, L2; reflexivity).
  assert (L4 : length (put_at b (Z.to_nat 0) (hbytes1 h)) = length b) by (apply put_at_length; lia).
  rewrite (enc_hdr_tail h H) by lia. cbn [obind w_buf w_pos].
  apply f_equal. apply f_equal2; [apply f_equal2; [|lia]|lia].
  replace (Z.to_nat (0 + Z.of_nat (length (hbytes1 h)))) with (0 + length (hbytes1 h))%nat by lia.
  change (Z.to_nat 0) with 0%nat.
  rewrite put_at_app by lia. unfold put_at. cbn [firstn Datatypes.app]. fold (hbytes h). rewrite hbytes_length by exact H. reflexivity.
Qed.

Lemma put_header_monolithic : forall h b len, rpch_ok h -> 80 <= len <= Z.of_nat (length b) -> len < 65536 ->
  put_dce_rpc_header h (mkWr (Some b) len 0) = Ok (mkWr (Some (hbytes h ++ skipn 80 b)) len 80).
Proof.
  intros h b len H L N. pose proof (put_header_ok h b len H L N) as P. unfold put_header in P.
  assert (A : put_dce_rpc_header h (mkWr (Some b) len 0) = do w <- hdr_head h (mkWr (Some b) len 0); hdr_tail h w).
  { unfold put_dce_rpc_header, hdr_head, hdr_tail, wseq. cbn zeta.
    repeat match goal with |- (do w <- ?x; ?k) = _ => destruct x; cbn [obind]; [|reflexivity|reflexivity] end. reflexivity. }
  rewrite A. destruct (hdr_head h _) as [w| |] eqn:E1; cbn [obind] in *; try discriminate.
  destruct (hdr_tail h w) as [v| |] eqn:E2; cbn [obind] in *; try discriminate.
  destruct v as [vb vl vp]; cbn [w_buf w_pos] in *. destruct vb; [|discriminate]. injection P as -> -> P3.
  f_equal. f_equal.
  pose proof (enc_hdr_head h H b len 0 ltac:(lia)) as X. rewrite hbytes1_length in X by exact H.
  rewrite X in E1 by lia. clear X.
  pose proof (enc_hdr_tail h H (put_at b (Z.to_nat 0) (hbytes1 h)) len (0 + Z.of_nat 74)) as Y.
  rewrite app_length, e16_length, hbytes2_length in Y. rewrite put_at_length in Y by (rewrite hbytes1_length by exact H; lia).
  assert (W : w = mkWr (Some (put_at b (Z.to_nat 0) (hbytes1 h))) len (0 + Z.of_nat 74)) by congruence.
  rewrite W in E2. rewrite Y in E2 by lia. congruence.
Qed.

(** What is read back from these bytes. *)
Lemma hbytes_read : forall h t rlen be0 o1 o2 o3, rpch_ok h -> length o1 = 8%nat -> length o2 = 8%nat -> length o3 = 8%nat ->
  80 <= rlen <= 80 + Z.of_nat (length t) -> rlen < 65536 ->
  get_dce_rpc_header o1 o2 o3 (mkRd (Some (hbytes h ++ t)) rlen be0 POk 0) =
  Ok (h, mkRd (Some (hbytes h ++ t)) rlen (h_be h) POk 80).
Proof.
  intros h t rlen be0 o1 o2 o3 H L1 L2 L3 R N.
  pose proof (hbytes_length h H) as LH.
  destruct (C28_rpc_header be0 h o1 o2 o3 H L1 L2 L3 (hbytes h ++ t) 80 rlen 0) as (b' & P & _ & _ & _ & G);
    rewrite ?app_length; try lia.
  rewrite put_header_monolithic in P by (rewrite ?app_length; try lia; exact H).
  assert (B : b' = hbytes h ++ skipn 80 (hbytes h ++ t)) by congruence. clear P.
  rewrite skipn_app, skipn_all2 in B by lia. rewrite LH in B. cbn [Nat.sub skipn Datatypes.app] in B. subst b'.
  exact G.
Qed.

Definition set_bodylen (h : rpch) (v : Z) : rpch :=
  mkRpch (h_version h) (h_ptype h) (h_last h) (h_frag h) (h_nofack h) (h_maybe h) (h_idem h) (h_bcast h) (h_cancel h)
    (h_be h) (h_float h) (h_reserved h) (h_serial_high h) (h_object h) (h_interface h) (h_activity h) (h_boot h) (h_ifver h)
    (h_seq h) (h_opnum h) (h_ifhint h) (h_acthint h) v (h_fragnmb h) (h_auth h) (h_serial_low h).

Lemma put_len_ok : forall h t v len, rpch_ok h -> 0 <= v < 65536 -> 80 <= len <= 80 + Z.of_nat (length t) -> len < 65536 ->
  put_len (h_be h) v (hbytes h ++ t) len 74 = Ok (hbytes (set_bodylen h v) ++ t).
Proof.
  intros h t v len H V L N. pose proof (hbytes_length h H) as LH. pose proof (hbytes1_length h H) as L1.
  unfold put_len. rewrite (enc_u16 (h_be h) v V) by (rewrite ?e16_length, ?app_length; lia). cbn [obind w_buf]. f_equal.
  unfold hbytes. rewrite <- !app_assoc. change (Z.to_nat 74) with 74%nat. rewrite <- L1 at 1.
  pose proof (put_at_over (hbytes1 h ++ e16 (h_be h) (h_bodylen h) ++ hbytes2 h ++ t) 0 (hbytes1 h) (e16 (h_be h) (h_bodylen h)) (e16 (h_be h) v) (hbytes2 h ++ t)) as X.
  unfold put_at in *. rewrite firstn_app, firstn_all2, Nat.sub_diag by lia. cbn [firstn]. rewrite app_nil_r, e16_length.
  rewrite skipn_app, skipn_all2 by lia. replace (length (hbytes1 h) + 2 - length (hbytes1 h))%nat with 2%nat by lia. cbn [Datatypes.app].
  rewrite skipn_app, skipn_all2 by (rewrite e16_length; lia). rewrite e16_length. reflexivity.
Qed.

Lemma rpch_ok_bodylen : forall h v, rpch_ok h -> 0 <= v < 65536 -> rpch_ok (set_bodylen h v).
Proof.
  intros h v H Hv. unfold rpch_ok in *. cbn.
  destruct H as (V & PT & F1 & F2 & F3 & F4 & F5 & F6 & Hc & Hf & Hr & Hs & U1 & U2 & U3 & Hb & Hi & Hq & Ho & Hih & Hah & Hbl & Hfn & Hau & Hsl).
  repeat (split; [assumption|]). assumption.
Qed.

Lemma set_flags_ok : forall h pt last frag nofack idem be bl fn sh sl, hdr_in h -> 0 <= pt < 32 -> flag last -> flag frag -> flag nofack ->
  flag idem -> 0 <= bl < 65536 -> 0 <= fn < 65536 -> byte sh -> byte sl -> rpch_ok (set_flags h pt last frag nofack idem be bl fn sh sl).
Proof.
  intros h pt last frag nofack idem be bl fn sh sl H. intros. unfold hdr_in in H. unfold rpch_ok. cbn.
  assert (flag 0) by (left; reflexivity).
  destruct H as (V & PT & F1 & F2 & F3 & F4 & F5 & F6 & Hc & Hf & Hr & Hs & U1 & U2 & U3 & Hb & Hi & Hq & Ho & Hih & Hah & Hbl & Hfn & Hau & Hsl).
  repeat (split; [assumption || reflexivity|]). assumption.
Qed.

(** Any size: nothing outside is written. *)
Ltac ins1 :=
  match goal with
  | |- stays_inside (put_byte _) => apply inside_byte
  | |- stays_inside (put_u16 _ _) => apply inside_u16
  | |- stays_inside (put_u32 _ _) => apply inside_u32
  | |- stays_inside (put_uuid _ _) => apply inside_uuid
  | |- stays_inside (_ ;; _) => apply inside_seq
  end.
Lemma inside_head : forall h, stays_inside (hdr_head h).
Proof. intros h. unfold hdr_head. cbn zeta. repeat ins1. Qed.
Lemma inside_tail : forall h, stays_inside (hdr_tail h).
Proof. intros h. unfold hdr_tail. repeat ins1. Qed.

Lemma put_header_any : forall h b len, rpch_ok h -> 0 <= len <= Z.of_nat (length b) -> len < 65536 ->
  exists b' start lp, put_header h b len 0 = Ok (b', start, lp) /\ length b' = length b /\ 0 <= lp <= start /\ start <= Z.min len 80.
Proof.
  intros h b len H L N. destruct (Z.le_gt_cases 80 len) as [G|G].
  - rewrite put_header_ok by (try assumption; lia). eexists _, _, _. split; [reflexivity|].
    rewrite app_length, skipn_length, hbytes_length by exact H. lia.
  - unfold put_header.
    destruct (inside_head h b len 0 ltac:(lia) ltac:(lia) ltac:(lia)) as (b1 & p1 & E1 & P1 & L1 & _). rewrite E1. cbn [obind].
    destruct (inside_tail h b1 len p1 ltac:(lia) ltac:(lia) ltac:(lia)) as (b2 & p2 & E2 & P2 & L2 & _). rewrite E2. cbn [obind w_buf w_pos].
    eexists _, _, _. split; [reflexivity|]. lia.
Qed.

Lemma put_len_any : forall be v b len lp, 0 <= lp -> len <= Z.of_nat (length b) -> len < 65536 ->
  exists b', put_len be v b len lp = Ok b' /\ length b' = length b.
Proof.
  intros be v b len lp P L N. unfold put_len.
  assert (B : forall v x b0, 0 <= x -> len <= Z.of_nat (length b0) ->
    exists b1 x1, put_byte v (mkWr (Some b0) len x) = Ok (mkWr (Some b1) len x1) /\ length b1 = length b0 /\ 0 <= x1).
  { intros v0 x b0 X B0. unfold put_byte. cbn [w_len w_pos w_buf]. destruct (Z.ltb_spec len (x + 1)).
    - eexists _, _. split; [reflexivity|]. lia.
    - rewrite poke_ok by (cbn [length]; lia). cbn [obind]. eexists _, _. split; [reflexivity|]. split.
      + change (length (put_at b0 (Z.to_nat x) [u8 v0]) = length b0). apply put_at_length. cbn [length]. lia.
      + apply u16_range. }
  assert (T : forall v w, exists b', (do w <- (put_byte v ;; put_byte w) (mkWr (Some b) len lp); match w_buf w with Some b' => Ok b' | None => Ub end) = Ok b' /\ length b' = length b).
  { intros v1 v2. unfold wseq. destruct (B v1 lp b P L) as (b1 & x1 & E1 & L1 & P1). rewrite E1. cbn [obind].
    destruct (B v2 x1 b1 P1 ltac:(lia)) as (b2 & x2 & E2 & L2 & P2). rewrite E2. cbn [obind w_buf]. exists b2. split; [reflexivity|lia]. }
  unfold put_u16. destruct be; apply T.
Qed.
