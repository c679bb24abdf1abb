(** Lemmas about the block reader: every parser moves forward inside the received
    data and never leaves its buffers. *)
From Coq Require Import List ZArith Arith Bool Lia.
From Verif Require Import Base CpmModel CpmProps PpmModel PpmProps BlockModel.
Import ListNotations.
Local Open Scope Z_scope.

Definition byte (x : Z) : Prop := 0 <= x < 256.

(** A reader state that callers set up: [len] bytes of received data, in a buffer
    of at least that size (or no buffer at all). *)
Definition rok (r : rd) : Prop :=
  0 <= r_pos r < 65536 /\ 0 <= r_len r < 65536 /\
  match r_buf r with Some b => r_len r <= Z.of_nat (length b) /\ Forall byte b | None => True end.

(** What reading does to the state: moves forward inside the data, and after an
    error nothing. *)
Definition rstep (sticky : bool) (r r' : rd) : Prop :=
  r_buf r' = r_buf r /\ r_len r' = r_len r /\ r_pos r <= r_pos r' <= Z.max (r_pos r) (r_len r) /\
  (sticky = true -> r_res r <> POk -> r_res r' = r_res r /\ r_pos r' = r_pos r) /\
  (r_res r <> POk -> r_pos r' = r_pos r /\ r_res r' <> POk).

Definition safe {A} (st : bool) (m : reader A) (P : A -> Prop) : Prop :=
  forall r, rok r -> exists a r', m r = Ok (a, r') /\ P a /\ rstep st r r'.

Lemma rok_step : forall st r r', rok r -> rstep st r r' -> rok r'.
Proof.
  unfold rok, rstep. intros st r r' (A & B & C) (D & E & F & _). rewrite D, E. repeat split; try lia. exact C.
Qed.

Lemma rstep_refl : forall st r, rstep st r r.
Proof. unfold rstep. intros; repeat split; auto; lia. Qed.

Lemma rstep_trans : forall st a b c, rstep st a b -> rstep st b c -> rstep st a c.
Proof.
  unfold rstep. intros st a b c (A1 & A2 & A3 & A4 & A5) (B1 & B2 & B3 & B4 & B5).
  refine (conj _ (conj _ (conj _ (conj _ _)))); try congruence; try lia.
  - intros T N. destruct (A4 T N) as [X Y]. assert (N2 : r_res b <> POk) by congruence. destruct (B4 T N2). split; congruence.
  - intros N. destruct (A5 N) as [X Y]. destruct (B5 Y). split; congruence.
Qed.

Lemma rstep_weak : forall st r r', rstep true r r' -> rstep st r r'.
Proof. unfold rstep. intros st r r' (A & B & C & D & E). refine (conj A (conj B (conj C (conj (fun _ => D eq_refl) E)))). Qed.

Lemma safe_weak : forall A st (m : reader A) P, safe true m P -> safe st m P.
Proof. intros A st m P H r R. destruct (H r R) as (a & r' & X & Y & Z0). exists a, r'. auto using rstep_weak. Qed.

Lemma safe_imp : forall A st (m : reader A) (P Q : A -> Prop), safe st m P -> (forall a, P a -> Q a) -> safe st m Q.
Proof. intros A st m P Q H I r R. destruct (H r R) as (a & r' & X & Y & Z0). exists a, r'. auto. Qed.

Lemma safe_ret : forall A st (a : A) (P : A -> Prop), P a -> safe st (rret a) P.
Proof. intros A st a P H r R. exists a, r. split; [reflexivity|]. split; [exact H|apply rstep_refl]. Qed.

Lemma safe_bind : forall A B st (m : reader A) (k : A -> reader B) P Q,
  safe st m P -> (forall a, P a -> safe st (k a) Q) -> safe st (rbind m k) Q.
Proof.
  intros A B st m k P Q H K r R. destruct (H r R) as (a & r1 & E1 & P1 & S1).
  destruct (K a P1 r1 (rok_step _ _ _ R S1)) as (b & r2 & E2 & P2 & S2).
  exists b, r2. unfold rbind. rewrite E1. cbn [obind]. rewrite E2. split; [reflexivity|]. split; [exact P2|].
  eapply rstep_trans; eauto.
Qed.

Lemma byte_at_ok : forall b i, 0 <= i < Z.of_nat (length b) -> byte_at b i = Ok (nth (Z.to_nat i) b 0).
Proof.
  intros b i H. unfold byte_at. destruct (Z.leb_spec 0 i); [|lia]. destruct (Z.ltb_spec i (Z.of_nat (length b))); [|lia]. reflexivity.
Qed.

Lemma byte_nth : forall b i, Forall byte b -> byte (nth i b 0).
Proof.
  intros b i H. destruct (Nat.lt_ge_cases i (length b)) as [L|L].
  - rewrite Forall_forall in H. apply H. apply nth_In. exact L.
  - rewrite nth_overflow by lia. unfold byte. lia.
Qed.

Lemma is_ok_true : forall e, is_ok e = true <-> e = POk.
Proof. destruct e; cbn; split; congruence. Qed.

Ltac rstep_tac := unfold rstep, set_pos, set_res; cbn [r_buf r_len r_pos r_res]; refine (conj _ (conj _ (conj _ (conj _ _)))); try lia; try congruence; intros; try congruence; try (split; congruence).

Lemma safe_byte : forall st, safe st get_byte byte.
Proof.
  intros st r R. unfold get_byte. destruct (is_ok (r_res r)) eqn:Eo; cbn [negb].
  - apply is_ok_true in Eo. destruct (Z.leb_spec (r_len r) (r_pos r)) as [L|L].
    + eexists _, _. split; [reflexivity|]. split; [unfold byte; lia|]. rstep_tac.
    + destruct R as (R1 & R2 & R3). destruct (r_buf r) as [b|] eqn:Eb.
      * destruct R3 as [R3 R4]. rewrite byte_at_ok by lia. cbn [obind].
        rewrite u16_id by lia.
        eexists _, _. split; [reflexivity|]. split; [apply byte_nth; exact R4|]. rstep_tac.
      * eexists _, _. split; [reflexivity|]. split; [unfold byte; lia|]. rstep_tac.
  - eexists _, _. split; [reflexivity|]. split; [unfold byte; lia|]. apply rstep_refl.
Qed.

Lemma safe_mem : forall st n, 0 <= n -> safe st (get_mem n) (fun x => match x with Some v => Z.of_nat (length v) = n | None => True end).
Proof.
  intros st n N r R. unfold get_mem. destruct (is_ok (r_res r)) eqn:Eo; cbn [negb].
  - apply is_ok_true in Eo. destruct (Z.ltb_spec (r_len r) (r_pos r + n)) as [L|L].
    + eexists _, _. split; [reflexivity|]. split; [exact Logic.I|]. rstep_tac.
    + destruct R as (R1 & R2 & R3). destruct (r_buf r) as [b|] eqn:Eb.
      * destruct R3 as [R3 R4]. rewrite slice_ok by lia. cbn [obind]. rewrite u16_id by lia.
        eexists _, _. split; [reflexivity|]. split; [|rstep_tac].
        rewrite firstn_length, skipn_length. lia.
      * eexists _, _. split; [reflexivity|]. split; [exact Logic.I|]. rstep_tac.
  - eexists _, _. split; [reflexivity|]. split; [exact Logic.I|]. apply rstep_refl.
Qed.

Lemma safe_mem_into : forall st cap old n, 0 <= n <= cap -> Z.of_nat (length old) = cap ->
  safe st (get_mem_into cap old n) (fun v => Z.of_nat (length v) = cap).
Proof.
  intros st cap old n N L r R. unfold get_mem_into.
  destruct (safe_mem st n ltac:(lia) r R) as (x & r' & E & P & S1). rewrite E. cbn [obind].
  destruct x as [v|].
  - destruct (Z.ltb_spec cap n); [lia|]. eexists _, _. split; [reflexivity|]. split; [|exact S1].
    rewrite app_length, skipn_length. lia.
  - eexists _, _. split; [reflexivity|]. split; [exact L|exact S1].
Qed.

Definition u16v (x : Z) : Prop := 0 <= x < 65536.
Definition u32v (x : Z) : Prop := 0 <= x < 4294967296.

Lemma safe_u16 : forall st, safe st get_u16 u16v.
Proof.
  intros st r R. unfold get_u16. destruct (is_ok (r_res r)) eqn:Eo; cbn [negb].
  - refine (safe_bind _ _ st _ _ byte u16v (safe_byte st) _ r R). intros a Ha.
    refine (safe_bind _ _ st _ _ byte u16v (safe_byte st) _). intros b Hb.
    apply safe_ret. apply u16_range.
  - eexists _, _. split; [reflexivity|]. split; [unfold u16v; lia|]. apply rstep_refl.
Qed.

Lemma safe_u32 : forall st, safe st get_u32 u32v.
Proof.
  intros st r R. unfold get_u32.
  assert (safe st (rdo a <- get_byte; rdo b <- get_byte; rdo c <- get_byte; rdo d <- get_byte;
   rret (u32 (if r_be r then Z.shiftl a 24 + Z.shiftl b 16 + Z.shiftl c 8 + d
              else a + Z.shiftl b 8 + Z.shiftl c 16 + Z.shiftl d 24))) u32v) as X; [|exact (X r R)].
  eapply safe_bind; [apply safe_byte|intros a _]. eapply safe_bind; [apply safe_byte|intros b _].
  eapply safe_bind; [apply safe_byte|intros c _]. eapply safe_bind; [apply safe_byte|intros d _].
  apply safe_ret. apply u32_range.
Qed.

Lemma safe_uuid : forall st old, length old = 8%nat -> safe st (get_uuid old) (fun _ => True).
Proof.
  intros st old L. unfold get_uuid.
  eapply safe_bind; [apply safe_u32|intros a _]. eapply safe_bind; [apply safe_u16|intros b _].
  eapply safe_bind; [apply safe_u16|intros c _]. eapply safe_bind; [apply (safe_mem_into st 8 old 8); lia|intros d _].
  apply safe_ret. exact Logic.I.
Qed.

Lemma safe_set_endian : forall st b, safe st (set_endian b) (fun _ => True).
Proof.
  intros st b r R. eexists _, _. split; [reflexivity|]. split; [exact Logic.I|].
  unfold rstep, set_be; cbn [r_buf r_len r_pos r_res]. repeat split; auto; lia.
Qed.

Lemma safe_skip : forall st n, safe st (skip_bytes n) (fun _ => True).
Proof.
  intros st n. induction n; cbn [skip_bytes]; [apply safe_ret; exact Logic.I|].
  eapply safe_bind; [apply safe_byte|intros a _]. exact IHn.
Qed.

Ltac sstep :=
  first
  [ apply safe_ret; try exact Logic.I
  | eapply safe_bind; [first [apply safe_u16|apply safe_u32|apply safe_byte|apply safe_set_endian|apply safe_skip
                             |apply safe_uuid; first [assumption|lia|reflexivity]
                             |apply safe_mem_into; [lia|first [assumption|cbn [length]; lia]]]
                      |let a := fresh "a" in let h := fresh "Ha" in intros a h] ].

Lemma safe_block_header : forall st, safe st get_block_header (fun _ => True).
Proof. intros st. unfold get_block_header. repeat sstep. Qed.

Lemma safe_control : forall st old, length old = 8%nat -> safe st (get_control old) (fun _ => True).
Proof. intros st old L. unfold get_control. repeat sstep. Qed.

Lemma safe_alarm_fixed : forall st, safe st get_alarm_fixed (fun _ => True).
Proof. intros st. unfold get_alarm_fixed. repeat sstep. Qed.

Lemma safe_alarm_data : forall st, safe st get_alarm_data (fun _ => True).
Proof. intros st. unfold get_alarm_data. repeat sstep. Qed.

Lemma safe_alarm_ack : forall st a b, safe st (get_alarm_ack a b) (fun _ => True).
Proof. intros st a b. unfold get_alarm_ack. repeat sstep. Qed.

Lemma safe_pnio_status : forall st, safe st get_pnio_status (fun _ => True).
Proof. intros st. unfold get_pnio_status. repeat sstep. Qed.

Lemma safe_rpc_header : forall st a b c, length a = 8%nat -> length b = 8%nat -> length c = 8%nat ->
  safe st (get_dce_rpc_header a b c) (fun _ => True).
Proof. intros st a b c La Lb Lc. unfold get_dce_rpc_header. repeat sstep. Qed.

Lemma safe_ndr : forall st, safe st get_ndr (fun _ => True).
Proof. intros st. unfold get_ndr. repeat sstep. Qed.

Lemma safe_write_request : forall st a, length a = 8%nat -> safe st (get_write_request a) (fun _ => True).
Proof. intros st a La. unfold get_write_request. repeat sstep. Qed.

Lemma safe_read_request : forall st a b, length a = 8%nat -> length b = 8%nat -> safe st (get_read_request a b) (fun _ => True).
Proof. intros st a b La Lb. unfold get_read_request. repeat sstep. Qed.

Lemma safe_boundary : forall st, safe st get_boundary (fun _ => True).
Proof. intros st. unfold get_boundary. repeat sstep. Qed.

Lemma safe_interface_adjust : forall st, safe st get_interface_adjust (fun _ => True).
Proof. intros st. unfold get_interface_adjust. repeat sstep. Qed.

Lemma safe_put_nul : forall st s k, 0 <= k < Z.of_nat (length s) ->
  safe st (put_nul s k) (fun v => length v = length s).
Proof.
  intros st s k K r R. unfold put_nul. destruct (Nat.ltb_spec (Z.to_nat k) (length s)); [|lia].
  eexists _, _. split; [reflexivity|]. split; [|apply rstep_refl].
  rewrite !app_length, firstn_length, skipn_length. cbn [length]. lia.
Qed.

Lemma safe_station_name : forall st cap old, 0 < cap -> Z.of_nat (length old) = cap ->
  safe st (get_station_name cap old) (fun v => Z.of_nat (length v) = cap).
Proof.
  intros st cap old C L. unfold get_station_name.
  eapply safe_bind; [apply safe_u16|intros n Hn]. unfold u16v in Hn.
  set (k := if cap - 1 <? n then cap - 1 else n).
  assert (K : 0 <= k < cap) by (unfold k; destruct (Z.ltb_spec (cap - 1) n); lia). clearbody k.
  eapply safe_bind; [apply (safe_mem_into st cap old k); lia|intros s Hs]. cbn beta in Hs.
  refine (safe_imp _ st _ _ _ (safe_put_nul st s k _) _); [lia|]. intros v Hv. lia.
Qed.

Lemma safe_ar_param : forall st o1 o2 m n, length o1 = 8%nat -> length o2 = 8%nat -> length m = 6%nat ->
  length n = 241%nat -> safe st (get_ar_param o1 o2 m n) (fun a => length (ar_name a) = 241%nat).
Proof.
  intros st o1 o2 m n L1 L2 L3 L4. unfold get_ar_param. do 8 sstep.
  eapply safe_bind; [apply (safe_station_name st 241 n); lia|intros s Hs].
  apply safe_ret. cbn [ar_name]. cbn beta in Hs. lia.
Qed.

Lemma safe_fill : forall A st cap n ix (m : reader A) P, safe st m P -> (ix + n <= cap)%nat ->
  safe st (fill cap ix n m) (fun l => length l = n /\ Forall P l).
Proof.
  intros A st cap n. induction n as [|n IH]; intros ix m P H L; cbn [fill].
  - apply safe_ret. split; [reflexivity|constructor].
  - intros r R. destruct (Nat.leb_spec cap ix); [lia|].
    refine (safe_bind _ _ st m _ P _ H _ r R). intros a Ha.
    eapply safe_bind; [apply (IH (S ix) m P H); lia|intros l [Hl Fl]].
    apply safe_ret. cbn [length]. split; [lia|constructor; assumption].
Qed.

Lemma safe_frame_descriptor : forall st, safe st get_frame_descriptor (fun _ => True).
Proof. intros st. unfold get_frame_descriptor. repeat sstep. Qed.

Definition entry_fits (cap : nat) (e : apientry) : Prop := (length (ae_data e) <= cap /\ length (ae_iocs e) <= cap)%nat.

Lemma safe_api_entry : forall st cap, safe st (get_iocr_api_entry cap) (fun x => entry_fits cap (snd x)).
Proof.
  intros st cap. unfold get_iocr_api_entry, entry_fits. do 2 sstep. unfold u16v in Ha0.
  destruct (Z.ltb_spec (Z.of_nat cap) a0); [apply safe_ret; cbn; lia|].
  eapply safe_bind; [apply (safe_fill _ st cap (Z.to_nat a0) 0 _ _ (safe_frame_descriptor st)); lia|intros d [Hd _]].
  sstep. unfold u16v in Ha1.
  destruct (Z.ltb_spec (Z.of_nat cap) a1); [apply safe_ret; cbn; lia|].
  eapply safe_bind; [apply (safe_fill _ st cap (Z.to_nat a1) 0 _ _ (safe_frame_descriptor st)); lia|intros c [Hc _]].
  apply safe_ret. cbn [snd ae_data ae_iocs]. lia.
Qed.

Lemma safe_iocr_apis : forall st capapi cap n ix, (ix + n <= capapi)%nat ->
  safe st (get_iocr_apis capapi cap ix n) (fun x => (length (snd x) <= n)%nat /\ Forall (entry_fits cap) (snd x)).
Proof.
  intros st capapi cap n. induction n as [|n IH]; intros ix L; cbn [get_iocr_apis].
  - apply safe_ret. cbn. auto.
  - intros r R. destruct (Nat.leb_spec capapi ix); [lia|].
    refine (safe_bind _ _ st _ _ _ _ (safe_api_entry st cap) _ r R). intros [ok e] He. cbn [fst snd] in *.
    destruct ok.
    + eapply safe_bind; [apply (IH (S ix)); lia|intros [ok2 l] [Hl Fl]]. cbn [fst snd] in *.
      apply safe_ret. cbn [snd length]. split; [lia|constructor; assumption].
    + apply safe_ret. cbn. split; [lia|constructor; auto].
Qed.

Lemma safe_iocr_param : forall st capapi cap m, length m = 6%nat ->
  safe st (get_iocr_param capapi cap m)
    (fun x => (length (i_apis (snd x)) <= capapi)%nat /\ Forall (entry_fits cap) (i_apis (snd x))).
Proof.
  intros st capapi cap m L. unfold get_iocr_param. do 16 sstep. cbn zeta.
  match goal with H : u16v ?n |- context [Z.of_nat capapi <? ?n] => unfold u16v in H; destruct (Z.ltb_spec (Z.of_nat capapi) n) end.
  - apply safe_ret. cbn. split; [lia|constructor].
  - eapply safe_bind; [apply safe_iocr_apis; lia|intros [ok l] [Hl Fl]]. apply safe_ret. cbn [snd i_apis] in *.
    split; [lia|assumption].
Qed.

Lemma safe_exp_submodule : forall st, safe st get_exp_submodule (fun _ => True).
Proof.
  intros st. unfold get_exp_submodule.
  assert (D : safe st get_data_desc (fun _ => True)) by (unfold get_data_desc; repeat sstep).
  do 3 sstep. cbn zeta. eapply safe_bind; [exact D|intros d _].
  destruct (get_bits a1 0 2 =? 3); [|apply safe_ret; exact Logic.I].
  eapply safe_bind; [exact D|intros d1 _]. apply safe_ret. exact Logic.I.
Qed.
