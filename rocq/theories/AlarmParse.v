(** What the alarm parser of AlarmModel.v finds in a frame, byte by byte. *)
From Coq Require Import List ZArith Arith Bool Lia.
From Verif Require Import Base CpmModel CpmProps PpmModel PpmProps BlockModel BlockReadLemmas AlarmModel
  AlarmSpec AlarmRing AlarmLemmas.
Import ListNotations.
Local Open Scope Z_scope.

(** Numbers in a frame, most significant byte first. *)
Definition at8 (b : list Z) (i : Z) : Z := nth (Z.to_nat i) b 0.
Definition at16 (b : list Z) (i : Z) : Z := 256 * at8 b i + at8 b (i + 1).
Definition at32 (b : list Z) (i : Z) : Z := 65536 * at16 b i + at16 b (i + 2).

Definition rdr (b : list Z) (i : Z) : rd := mkRd (Some b) (Z.of_nat (length b)) true POk i.
Definition failed (b : list Z) (r : rd) : Prop := r_buf r = Some b /\ r_res r <> POk.

(** A reader of [n] bytes: it succeeds exactly if they are there. *)
Definition exactly {A} (b : list Z) (n : Z) (f : Z -> A) (m : reader A) : Prop :=
  (forall i, 0 <= i -> i + n <= Z.of_nat (length b) -> m (rdr b i) = Ok (f i, rdr b (i + n))) /\
  (forall i, 0 <= i -> 0 < n -> Z.of_nat (length b) < i + n -> exists v r, m (rdr b i) = Ok (v, r) /\ failed b r) /\
  (forall r, failed b r -> exists v r', m r = Ok (v, r') /\ failed b r').

Section Exact.
Variable b : list Z.
Hypothesis bytes : Forall byte b.
Hypothesis small : Z.of_nat (length b) < 65536.

Lemma at8_range : forall i, byte (at8 b i).
Proof. intros. now apply byte_nth. Qed.

Lemma at16_range : forall i, 0 <= at16 b i < 65536.
Proof. intros i. pose proof (at8_range i). pose proof (at8_range (i + 1)). unfold at16, byte in *. lia. Qed.

Lemma ex_byte : exactly b 1 (at8 b) get_byte.
Proof.
  repeat split.
  - intros i H L. unfold get_byte, rdr; cbn [r_res r_len r_pos r_buf is_ok negb].
    destruct (Z.leb_spec (Z.of_nat (length b)) i); [lia|]. rewrite byte_at_ok by lia. cbn [obind].
    unfold set_pos; cbn. rewrite u16_id by lia. reflexivity.
  - intros i H _ L. unfold get_byte, rdr; cbn [r_res r_len r_pos r_buf is_ok negb].
    destruct (Z.leb_spec (Z.of_nat (length b)) i); [|lia]. eexists _, _. split; [reflexivity|].
    split; cbn; congruence.
  - intros r (F1 & F2). unfold get_byte. destruct (r_res r) eqn:E; try congruence; cbn;
      (eexists _, _; split; [reflexivity|split; congruence]).
Qed.

Lemma ex_ret : forall A (a : A), exactly b 0 (fun _ => a) (rret a).
Proof.
  intros A a. unfold rret. repeat split.
  - intros. now rewrite Z.add_0_r.
  - intros. lia.
  - intros r F. eauto.
Qed.

Lemma ex_bind : forall A B n k f g (m : reader A) (q : A -> reader B), 0 < n -> 0 <= k ->
  exactly b n f m -> (forall a, exactly b k (g a) (q a)) ->
  exactly b (n + k) (fun i => g (f i) (i + n)) (rbind m q).
Proof.
  intros A B n k f g m q Hn Hk (M1 & M2 & M3) Q. unfold rbind. repeat split.
  - intros i Hi L. rewrite M1 by lia. cbn [obind]. destruct (Q (f i)) as (Q1 & _). rewrite Q1 by lia.
    do 3 f_equal. lia.
  - intros i Hi _ L. destruct (Z.le_gt_cases (i + n) (Z.of_nat (length b))) as [J|J].
    + rewrite M1 by lia. cbn [obind]. destruct (Q (f i)) as (_ & Q2 & _). apply Q2; lia.
    + destruct (M2 i Hi Hn ltac:(lia)) as (v & r & -> & F). cbn [obind]. now apply (Q v).
  - intros r F. destruct (M3 r F) as (v & r' & -> & F'). cbn [obind]. now apply (Q v).
Qed.

Lemma ex_eq : forall A n k f g (m : reader A), exactly b n f m -> n = k ->
  (forall i, 0 <= i -> i + k <= Z.of_nat (length b) -> f i = g i) -> exactly b k g m.
Proof.
  intros A n k f g m (M1 & M2 & M3) <- E. repeat split; auto.
  intros i Hi L. rewrite M1 by lia. now rewrite E.
Qed.

Lemma ex_u16 : exactly b 2 (at16 b) get_u16.
Proof.
  assert (X : exactly b (1 + (1 + 0)) (fun i => at16 b i)
    (rdo a <- get_byte; rdo c <- get_byte; rret (u16 (Z.shiftl a 8 + c)))).
  { eapply ex_eq with (f := fun i => u16 (Z.shiftl (at8 b i) 8 + at8 b (i + 1))) (n := 1 + (1 + 0)); auto.
    - apply ex_bind with (f := at8 b) (g := fun a i => u16 (Z.shiftl a 8 + at8 b i)); try lia; [apply ex_byte|].
      intros a. apply ex_bind with (f := at8 b) (g := fun c i => u16 (Z.shiftl a 8 + c)); try lia; [apply ex_byte|].
      intros c. apply ex_ret.
    - intros i _ _. rewrite Z.shiftl_mul_pow2 by lia. change (2 ^ 8) with 256.
      pose proof (at16_range i). unfold at16 in *. rewrite u16_id; lia. }
  destruct X as (X1 & X2 & X3). repeat split.
  - intros i Hi L. unfold get_u16. cbn [rdr r_res is_ok negb]. exact (X1 i Hi L).
  - intros i Hi N L. unfold get_u16. cbn [rdr r_res is_ok negb]. exact (X2 i Hi N L).
  - intros r (F1 & F2). unfold get_u16. destruct (r_res r) eqn:E; try congruence; cbn;
      (eexists _, _; split; [reflexivity|split; congruence]).
Qed.

Lemma ex_u32 : exactly b 4 (at32 b) get_u32.
Proof.
  pose (val := fun (be : bool) a c d e => u32 (if be then Z.shiftl a 24 + Z.shiftl c 16 + Z.shiftl d 8 + e
              else a + Z.shiftl c 8 + Z.shiftl d 16 + Z.shiftl e 24)).
  assert (X : forall be, exactly b (1 + (1 + (1 + (1 + 0))))
    (fun i => val be (at8 b i) (at8 b (i + 1)) (at8 b (i + 1 + 1)) (at8 b (i + 1 + 1 + 1)))
    (rdo a <- get_byte; rdo c <- get_byte; rdo d <- get_byte; rdo e <- get_byte; rret (val be a c d e))).
  { intros be. apply ex_bind with (f := at8 b)
      (g := fun a i => val be a (at8 b i) (at8 b (i + 1)) (at8 b (i + 1 + 1))); try lia; [apply ex_byte|]. intros a.
    apply ex_bind with (f := at8 b) (g := fun c i => val be a c (at8 b i) (at8 b (i + 1))); try lia; [apply ex_byte|]. intros c.
    apply ex_bind with (f := at8 b) (g := fun d i => val be a c d (at8 b i)); try lia; [apply ex_byte|]. intros d.
    apply ex_bind with (f := at8 b) (g := fun e i => val be a c d e); try lia; [apply ex_byte|]. intros e. apply ex_ret. }
  destruct (X true) as (X1 & X2 & _). repeat split.
  - intros i Hi L. etransitivity; [exact (X1 i Hi L)|]. do 2 f_equal. unfold val.
    rewrite !Z.shiftl_mul_pow2 by lia. change (2 ^ 24) with 16777216. change (2 ^ 16) with 65536. change (2 ^ 8) with 256.
    unfold at32, at16. replace (i + 1 + 1 + 1) with (i + 2 + 1) by lia. replace (i + 1 + 1) with (i + 2) by lia.
    pose proof (at8_range i). pose proof (at8_range (i + 1)). pose proof (at8_range (i + 2)). pose proof (at8_range (i + 2 + 1)).
    unfold byte in *. unfold u32. rewrite Z.mod_small; lia.
  - intros i Hi N L. exact (X2 i Hi N L).
  - intros r F. destruct (X (r_be r)) as (_ & _ & X3). exact (X3 r F).
Qed.

(** The frame: ten bytes of fixed part, the length of the rest, and the rest. *)
Definition fixed_at (i : Z) : afixed :=
  mkAfixed (at16 b i) (at16 b (i + 2)) (get_bits (at8 b (i + 4)) 0 4) (get_bits (at8 b (i + 4)) 4 4)
    (get_bits (at8 b (i + 5)) 0 4) (get_bits (at8 b (i + 5)) 4 1) (at16 b (i + 6)) (at16 b (i + 8)).
Definition header_at (i : Z) : bhead :=
  mkBhead (at16 b i) (at16 b (i + 2)) (at8 b (i + 4)) (at8 b (i + 5)).
Definition spec_at (i : Z) (x : Z) : Z := match x with
  | 0 => get_bits (at16 b i) 0 11 | 1 => get_bits (at16 b i) 11 1 | 2 => get_bits (at16 b i) 12 1
  | 3 => get_bits (at16 b i) 13 1 | _ => get_bits (at16 b i) 15 1 end.
Definition data_at (i : Z) : adata :=
  mkAdata (at16 b i) (at32 b (i + 2)) (at16 b (i + 6)) (at16 b (i + 8)) (at32 b (i + 10)) (at32 b (i + 14))
    (spec_at (i + 18) 0) (spec_at (i + 18) 1) (spec_at (i + 18) 2) (spec_at (i + 18) 3) (spec_at (i + 18) 4).
Definition status_at (i : Z) : pnio := mkPnio (at8 b i) (at8 b (i + 1)) (at8 b (i + 2)) (at8 b (i + 3)).

Ltac exs := first [apply ex_ret | eapply ex_bind; cycle 2; [first [apply ex_u16|apply ex_u32|apply ex_byte]|intros ?; exs|lia|lia]].
Ltac norm := repeat match goal with |- context [?i + ?a + ?c] =>
  match a with Zpos _ => match c with Zpos _ =>
    let v := eval vm_compute in (a + c) in replace (i + a + c) with (i + v) by lia end end end.

Lemma ex_fixed : exactly b 10 fixed_at get_alarm_fixed.
Proof.
  unfold get_alarm_fixed. eapply ex_eq; [exs|reflexivity|].
  intros i _ _. cbv beta. norm. reflexivity.
Qed.
Lemma ex_header : exactly b 6 header_at get_block_header.
Proof.
  unfold get_block_header. eapply ex_eq; [exs|reflexivity|].
  intros i _ _. cbv beta. norm. reflexivity.
Qed.
Lemma ex_data : exactly b 20 data_at get_alarm_data.
Proof.
  unfold get_alarm_data. eapply ex_eq; [exs|reflexivity|].
  intros i _ _. cbv beta. norm. reflexivity.
Qed.
Lemma ex_status : exactly b 4 status_at get_pnio_status.
Proof.
  unfold get_pnio_status. eapply ex_eq; [exs|reflexivity|].
  intros i _ _. cbv beta. norm. reflexivity.
Qed.
End Exact.

(** A complete alarm notification of priority [p] that starts at [i]. *)
Definition notification (p : bool) (b : list Z) (i : Z) (t : bool) (n k : Z) (d : adata) (usi len pos : Z) : Prop :=
  i + 40 <= Z.of_nat (length b) /\
  get_bits (at8 b (i + 4)) 4 4 = 1 /\ get_bits (at8 b (i + 4)) 0 4 = 1 /\
  t = negb (get_bits (at8 b (i + 5)) 4 1 =? 0) /\ n = at16 b (i + 6) /\ k = at16 b (i + 8) /\
  at16 b (i + 12) = (if p then 1 else 2) /\
  d = data_at b (i + 18) /\ usi = at16 b (i + 38) /\
  pos = i + 40 /\ len = (at16 b (i + 10) - 28) mod 65536.

Lemma failed_fixed : forall A b n f (m : reader A) i, exactly b n f m -> 0 < n -> 0 <= i ->
  (i + n <= Z.of_nat (length b) /\ m (rdr b i) = Ok (f i, rdr b (i + n))) \/
  (Z.of_nat (length b) < i + n /\ exists v r, m (rdr b i) = Ok (v, r) /\ failed b r).
Proof.
  intros A b n f m i (M1 & M2 & M3) N I. destruct (Z.le_gt_cases (i + n) (Z.of_nat (length b))); [left|right]; auto.
Qed.

Lemma parse_notify : forall p m t n k d usi len pos, frame_wf m ->
  let i := u16 (g_idpos m + 2) in
  parse p m = Ok (PData t n k (BNotify d usi len pos)) <-> notification p (g_bytes m) i t n k d usi len pos.
Proof.
  intros p m t n k d usi len pos (W1 & W2) i. set (b := g_bytes m) in *.
  assert (Hi : 0 <= i) by apply u16_range.
  unfold parse. fold b. fold i. change (mkRd (Some b) (Z.of_nat (length b)) true POk i) with (rdr b i).
  pose proof (ex_fixed b W1 W2) as X1. pose proof (ex_u16 b W1 W2) as X2. pose proof (ex_header b W1 W2) as X3.
  pose proof (ex_data b W1 W2) as X4.
  unfold notification.
  destruct (Z.le_gt_cases (i + 40) (Z.of_nat (length b))) as [L|L].
  - destruct X1 as (X1 & _), X2 as (X2 & _), X3 as (X3 & _), X4 as (X4 & _).
    rewrite X1 by lia. cbn [obind]. rewrite X2 by lia. cbn [obind].
    unfold parse_body. rewrite X3 by lia. cbn [obind].
    cbn [fixed_at a_version a_type a_send a_ack a_tack header_at b_type r_pos rdr].
    replace (i + 10 + 2) with (i + 12) by lia. replace (i + 12 + 6) with (i + 18) by lia.
    pose proof (X4 (i + 18) ltac:(lia) ltac:(lia)) as Y4.
    pose proof (X2 (i + 38) ltac:(lia) ltac:(lia)) as Y5.
    replace (i + 18 + 20) with (i + 38) in Y4 by lia. replace (i + 38 + 2) with (i + 40) in Y5 by lia.
    split.
    + intros H.
      destruct (Z.eqb_spec (get_bits (at8 b (i + 4)) 4 4) 1) as [V|V]; [|discriminate].
      destruct (Z.eqb_spec (get_bits (at8 b (i + 4)) 0 4) 3) as [T3|T3].
      { destruct (at16 b (i + 10) =? 0); discriminate. }
      destruct (Z.eqb_spec (get_bits (at8 b (i + 4)) 0 4) 1) as [T1|T1].
      2:{ destruct (_ =? 4); [destruct (_ =? 4)|]; discriminate. }
      destruct (Z.eqb_spec (at16 b (i + 12)) (bt_ack p)) as [A|A].
      { destruct (get_pnio_status (rdr b (i + 18))) as [[]| |]; cbn in H; discriminate. }
      destruct (Z.eqb_spec (at16 b (i + 12)) (bt_notify p)) as [N|N]; [|discriminate].
      rewrite Y4 in H. cbn [obind] in H. rewrite Y5 in H. cbn [obind rdr r_res r_pos] in H.
      injection H as <- <- <- <- <- <- <-. repeat split; auto.
      unfold u16. f_equal. lia.
    + intros (_ & V & T & -> & -> & -> & N & -> & -> & -> & ->). rewrite V, T. cbn [Z.eqb Pos.eqb].
      destruct (Z.eqb_spec (at16 b (i + 12)) (bt_ack p)) as [A|A]; [rewrite N in A; destruct p; discriminate|].
      unfold bt_notify. rewrite N, Z.eqb_refl. rewrite Y4. cbn [obind]. rewrite Y5. cbn [obind rdr r_res r_pos].
      do 3 f_equal. unfold u16. f_equal. lia.
  - split; [|intros (C & _); lia].
    intros H. exfalso.
    assert (Bad : forall (v : Z) r0 t0 n0 k0, failed b r0 \/ (exists j, r0 = rdr b j /\ 0 <= j /\ Z.of_nat (length b) < j + 28) ->
      (do x <- parse_body p v r0; Ok (PData t0 n0 k0 x)) <> Ok (PData t n k (BNotify d usi len pos))).
    { intros v r0 t0 n0 k0 F0. unfold parse_body.
      assert (F1 : exists h r1, get_block_header r0 = Ok (h, r1) /\
        (failed b r1 \/ exists j, r1 = rdr b j /\ 0 <= j /\ Z.of_nat (length b) < j + 22)).
      { destruct F0 as [F0|(j & -> & J1 & J2)].
        - destruct X3 as (_ & _ & X3). destruct (X3 r0 F0) as (h & r1 & E & F). eauto.
        - destruct (failed_fixed _ b _ _ _ j X3 ltac:(lia) J1) as [(J & ->)|(J & h & r1 & -> & F)]; [|eauto].
          eexists _, _. split; [reflexivity|]. right. exists (j + 6). repeat split; lia. }
      destruct F1 as (h & r1 & -> & F1). cbn [obind].
      destruct (b_type h =? bt_ack p).
      { destruct (get_pnio_status r1) as [[]| |]; cbn; discriminate. }
      destruct (b_type h =? bt_notify p); [|discriminate].
      assert (F2 : exists e r2, get_alarm_data r1 = Ok (e, r2) /\
        (failed b r2 \/ exists j, r2 = rdr b j /\ 0 <= j /\ Z.of_nat (length b) < j + 2)).
      { destruct F1 as [F1|(j & -> & J1 & J2)].
        - destruct X4 as (_ & _ & X4). destruct (X4 r1 F1) as (e & r2 & E & F). eauto.
        - destruct (failed_fixed _ b _ _ _ j X4 ltac:(lia) J1) as [(J & ->)|(J & e & r2 & -> & F)]; [|eauto].
          eexists _, _. split; [reflexivity|]. right. exists (j + 20). repeat split; lia. }
      destruct F2 as (e & r2 & -> & F2). cbn [obind].
      assert (F3 : exists u r3, get_u16 r2 = Ok (u, r3) /\ failed b r3).
      { destruct X2 as (X2 & X2' & X2''). destruct F2 as [F2|(j & -> & J1 & J2)]; [apply X2''; auto|apply X2'; lia]. }
      destruct F3 as (u & r3 & -> & (_ & F3)). cbn [obind]. destruct (r_res r3); try congruence; cbn; discriminate. }
    assert (F1 : exists f r1, get_alarm_fixed (rdr b i) = Ok (f, r1) /\
        (failed b r1 \/ exists j, r1 = rdr b j /\ 0 <= j /\ Z.of_nat (length b) < j + 30)).
    { destruct (failed_fixed _ b _ _ _ i X1 ltac:(lia) Hi) as [(J & ->)|(J & f & r1 & -> & F)]; [|eauto].
      eexists _, _. split; [reflexivity|]. right. exists (i + 10). repeat split; lia. }
    destruct F1 as (f & r1 & E1 & F1). rewrite E1 in H. cbn [obind] in H.
    assert (F2 : exists u r2, get_u16 r1 = Ok (u, r2) /\
        (failed b r2 \/ exists j, r2 = rdr b j /\ 0 <= j /\ Z.of_nat (length b) < j + 28)).
    { destruct F1 as [F1|(j & -> & J1 & J2)].
      - destruct X2 as (_ & _ & X2). destruct (X2 r1 F1) as (h & r2 & E & F). eauto.
      - destruct (failed_fixed _ b _ _ _ j X2 ltac:(lia) J1) as [(J & ->)|(J & h & r2 & -> & F)]; [|eauto].
        eexists _, _. split; [reflexivity|]. right. exists (j + 2). repeat split; lia. }
    destruct F2 as (u & r2 & E2 & F2). rewrite E2 in H. cbn [obind] in H.
    destruct (a_version f =? 1); [|discriminate].
    destruct (a_type f =? 3); [destruct (u =? 0); discriminate|].
    destruct (a_type f =? 1); [|destruct (a_type f =? 4); [destruct (u =? 4)|]; discriminate].
    exact (Bad _ _ _ _ _ F2 H).
Qed.

(** A notification that is cut off: the block type is there, the payload's
    start is not. *)
Definition cut (p : bool) (b : list Z) (i : Z) : Prop :=
  i + 14 <= Z.of_nat (length b) < i + 40 /\ at16 b (i + 12) = (if p then 1 else 2).

(** The type in a block header that is cut off anywhere. *)
Lemma header_type : forall b i h r', Forall byte b -> Z.of_nat (length b) < 65536 -> 0 <= i ->
  get_block_header (rdr b i) = Ok (h, r') -> b_type h = at16 b i.
Proof.
  intros b i h r' W1 W2 Hi E.
  assert (U : exists r1, get_u16 (rdr b i) = Ok (at16 b i, r1)).
  { destruct (Z.le_gt_cases (i + 2) (Z.of_nat (length b))) as [L|L].
    - destruct (ex_u16 b W1 W2) as (X & _). rewrite X by lia. eexists. reflexivity.
    - assert (Hb1 : at8 b (i + 1) = 0) by (unfold at8; apply nth_overflow; lia).
      unfold get_u16, rbind, rret. cbn [rdr r_res is_ok negb].
      destruct (ex_byte b W2) as (B1 & B2 & B3).
      destruct (Z.le_gt_cases (i + 1) (Z.of_nat (length b))) as [L1|L1].
      + rewrite B1 by lia. cbn [obind]. unfold get_byte at 1. cbn [rdr r_res r_len r_pos is_ok negb].
        destruct (Z.leb_spec (Z.of_nat (length b)) (i + 1)); [|lia]. cbn [obind rdr r_be]. eexists.
        do 2 f_equal. unfold at16. rewrite Hb1. rewrite Z.shiftl_mul_pow2 by lia. change (2 ^ 8) with 256.
        pose proof (at8_range b W1 i) as R. unfold byte in R. rewrite u16_id; lia.
      + assert (Hb0 : at8 b i = 0) by (unfold at8; apply nth_overflow; lia).
        unfold get_byte at 1. cbn [rdr r_res r_len r_pos is_ok negb].
        destruct (Z.leb_spec (Z.of_nat (length b)) i); [|lia]. cbn [obind].
        unfold get_byte at 1. cbn [set_res r_res r_len r_pos is_ok negb obind r_be].
        eexists. do 2 f_equal. unfold at16. rewrite Hb1, Hb0. reflexivity. }
  destruct U as (r1 & U). unfold get_block_header, rbind in E. rewrite U in E. cbn [obind] in E.
  destruct (get_u16 r1) as [[l r2]| |]; cbn [obind] in E; try discriminate.
  destruct (get_byte r2) as [[vh r3]| |]; cbn [obind] in E; try discriminate.
  destruct (get_byte r3) as [[vl r4]| |]; cbn [obind] in E; try discriminate.
  unfold rret in E. injection E as <- <-. reflexivity.
Qed.

Lemma failed_header : forall b r h r', failed b r -> get_block_header r = Ok (h, r') -> b_type h = 0.
Proof.
  intros b [bf ln be rs ps] h r' (F1 & F2) E. cbn in F2. unfold get_block_header, rbind, rret, get_u16, get_byte in E.
  destruct rs; try congruence; cbn in E; injection E as <- <-; reflexivity.
Qed.

Lemma parse_cut : forall p m t n k, frame_wf m -> parse p m = Ok (PData t n k BNotifyBad) ->
  cut p (g_bytes m) (u16 (g_idpos m + 2)).
Proof.
  intros p m t n k (W1 & W2) H. set (b := g_bytes m) in *. set (i := u16 (g_idpos m + 2)) in *.
  assert (Hi : 0 <= i) by apply u16_range.
  unfold parse in H. fold b in H. fold i in H. change (mkRd (Some b) (Z.of_nat (length b)) true POk i) with (rdr b i) in H.
  pose proof (ex_fixed b W1 W2) as X1. pose proof (ex_u16 b W1 W2) as X2. pose proof (ex_header b W1 W2) as X3.
  pose proof (ex_data b W1 W2) as X4.
  assert (T : exists h r, (failed b r \/ r = rdr b (i + 12)) /\ get_block_header r = Ok h /\ b_type (fst h) = bt_notify p /\
    (r = rdr b (i + 12) -> Z.of_nat (length b) < i + 40)).
  { destruct (get_alarm_fixed (rdr b i)) as [[f r1]| |] eqn:E1; try discriminate. cbn [obind] in H.
    assert (F1 : failed b r1 \/ r1 = rdr b (i + 10)).
    { destruct (failed_fixed _ b _ _ _ i X1 ltac:(lia) Hi) as [(J & E)|(J & f' & r1' & E & F)]; rewrite E in E1; injection E1 as <- <-; auto. }
    destruct (get_u16 r1) as [[v r2]| |] eqn:E2; try discriminate. cbn [obind] in H.
    assert (F2 : failed b r2 \/ r2 = rdr b (i + 12)).
    { destruct F1 as [F1| ->].
      - destruct X2 as (_ & _ & X2). destruct (X2 r1 F1) as (x & r & E & F). rewrite E in E2. injection E2 as <- <-. auto.
      - destruct (failed_fixed _ b _ _ _ (i + 10) X2 ltac:(lia) ltac:(lia)) as [(J & E)|(J & f' & r1' & E & F)]; rewrite E in E2; injection E2 as <- <-; auto.
        right. f_equal. lia. }
    destruct (a_version f =? 1); [|discriminate].
    destruct (a_type f =? 3); [destruct (v =? 0); discriminate|].
    destruct (a_type f =? 1); [|destruct (a_type f =? 4); [destruct (v =? 4)|]; discriminate].
    unfold parse_body in H. destruct (get_block_header r2) as [[h r3]| |] eqn:E3; try discriminate. cbn [obind] in H.
    destruct (b_type h =? bt_ack p).
    { destruct (get_pnio_status r3) as [[]| |]; cbn in H; discriminate. }
    destruct (Z.eqb_spec (b_type h) (bt_notify p)) as [N|N]; [|cbn in H; discriminate].
    exists (h, r3), r2. repeat split; auto.
    intros ->. destruct (Z.lt_ge_cases (Z.of_nat (length b)) (i + 40)) as [L|L]; auto. exfalso.
    destruct X2 as (X2 & _), X3 as (X3 & _), X4 as (X4 & _).
    rewrite X3 in E3 by lia. injection E3 as <- <-. rewrite X4 in H by lia. cbn [obind] in H.
    rewrite X2 in H by lia. cbn [obind rdr r_res] in H. discriminate. }
  destruct T as ([h r'] & r & [F| ->] & E & N & L); cbn [fst] in N.
  - rewrite (failed_header b r h r' F E) in N. destruct p; discriminate.
  - specialize (L eq_refl). rewrite (header_type b (i + 12) h r') in N; auto; try lia.
    unfold cut. split; [|rewrite N; reflexivity]. split; auto.
    destruct (Z.le_gt_cases (i + 14) (Z.of_nat (length b))) as [G|G]; auto. exfalso.
    assert (Hb1 : at8 b (i + 12 + 1) = 0) by (unfold at8; apply nth_overflow; lia).
    unfold at16 in N. rewrite Hb1 in N. unfold bt_notify in N. destruct p; lia.
Qed.

(** A complete alarm acknowledge: the status the application gets is taken from
    the four bytes behind the block header. *)
Lemma parse_alarm_ack : forall (p : bool) m, frame_wf m ->
  let i := u16 (g_idpos m + 2) in let b := g_bytes m in
  i + 22 <= Z.of_nat (length b) ->
  get_bits (at8 b (i + 4)) 4 4 = 1 -> get_bits (at8 b (i + 4)) 0 4 = 1 ->
  at16 b (i + 12) = (if p then 32769 else 32770) ->
  parse p m = Ok (PData (negb (get_bits (at8 b (i + 5)) 4 1 =? 0)) (at16 b (i + 6)) (at16 b (i + 8))
                    (BAck (status_at b (i + 18)))).
Proof.
  intros p m (W1 & W2) i b L V T N.
  assert (Hi : 0 <= i) by apply u16_range.
  unfold parse. fold b. fold i. change (mkRd (Some b) (Z.of_nat (length b)) true POk i) with (rdr b i).
  destruct (ex_fixed b W1 W2) as (X1 & _), (ex_u16 b W1 W2) as (X2 & _), (ex_header b W1 W2) as (X3 & _),
    (ex_status b W2) as (X4 & _).
  rewrite X1 by lia. cbn [obind]. rewrite X2 by lia. cbn [obind].
  unfold parse_body. rewrite X3 by lia. cbn [obind].
  cbn [fixed_at a_version a_type a_send a_ack a_tack header_at b_type r_pos rdr].
  replace (i + 10 + 2) with (i + 12) by lia. replace (i + 12 + 6) with (i + 18) by lia.
  rewrite V, T. cbn [Z.eqb Pos.eqb]. unfold bt_ack. rewrite N, Z.eqb_refl. rewrite X4 by lia. reflexivity.
Qed.
