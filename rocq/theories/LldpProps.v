(** LLDP frames: any bytes are handled safely (C99), well formed frames are
    understood (C100), also by another device (C101). *)
From Coq Require Import List ZArith Arith Bool Lia.
From Verif Require Import Base CpmModel CpmProps PpmModel PpmProps BlockModel BlockReadLemmas BlockReadProps BlockWriteProps LldpModel.
Import ListNotations.
Local Open Scope Z_scope.

(** * C99: any bytes *)

Definition lid_ok (size : Z) (c : lid) : Prop := Z.of_nat (length (i_str c)) = size.
Definition peer_ok (ds : Z) (p : peer) : Prop :=
  lid_ok cid_size (p_cid p) /\ lid_ok pid_size (p_pid p) /\ Z.of_nat (length (d_str (p_desc p))) = ds /\
  length (g_val (p_mgmt p)) = 31%nat /\ length (p_status p) = 4%nat /\ length (p_mac p) = 6%nat.
Definition org_ok (o : list Z * Z) : Prop := length (fst o) = 3%nat.

Lemma zeros_length : forall n, 0 <= n -> Z.of_nat (length (zeros n)) = n.
Proof. intros n N. unfold zeros. rewrite repeat_length. lia. Qed.

Lemma peer0_ok : forall ds, 0 <= ds -> peer_ok ds (peer0 ds).
Proof.
  intros ds D. unfold peer_ok, peer0, lid_ok. cbn [p_cid p_pid p_desc p_mgmt p_status p_mac i_str d_str g_val lid0 mgmt0].
  repeat split; try reflexivity. apply zeros_length. exact D.
Qed.

(** A state between the elements of a frame. *)
Definition inb (r : rd) : Prop := rok r /\ r_len r <= 65000 /\ (r_res r = POk -> r_pos r <= r_len r).

Definition fin {A} (m : reader A) (P : A -> Prop) (lo : Z) : Prop :=
  forall r, inb r -> exists a r', m r = Ok (a, r') /\ P a /\ rok r' /\ r_len r' = r_len r /\ r_buf r' = r_buf r /\
    (r_res r' = POk -> r_res r = POk /\ r_pos r + lo <= r_pos r').

Definition grow {A} (g : Z) (m : reader A) : Prop :=
  forall r a r', rok r -> m r = Ok (a, r') -> r_res r' = POk -> r_pos r + g <= r_pos r'.

Lemma inb_step : forall r r', inb r -> rstep true r r' -> inb r'.
Proof.
  intros r r' (R & L & P) S0. pose proof (rok_step _ _ _ R S0) as R'. destruct S0 as (A & B & C & D & E).
  split; [exact R'|]. split; [lia|]. intros O.
  destruct (r_res r) eqn:Er; try (exfalso; destruct E as [_ E]; [discriminate|apply E; exact O]).
  specialize (P eq_refl). lia.
Qed.

Lemma rstep_res : forall r r', rstep true r r' -> r_res r' = POk -> r_res r = POk.
Proof.
  intros r r' (A & B & C & D & E) O. destruct (r_res r) eqn:Er; [reflexivity|exfalso; destruct E as [_ E]; [discriminate|apply E; exact O]..].
Qed.

Lemma fin_safe : forall A (m : reader A) P, safe true m P -> fin m P 0.
Proof.
  intros A m P S0 r I. pose proof I as (R & L & _). destruct (S0 r R) as (a & r' & E & Pa & St). exists a, r'.
  split; [exact E|]. split; [exact Pa|]. split; [exact (rok_step _ _ _ R St)|].
  pose proof St as (B1 & B2 & B3 & _). split; [exact B2|]. split; [exact B1|]. intros O. split; [exact (rstep_res _ _ St O)|lia].
Qed.

Lemma fin_bind : forall A B (m : reader A) (k : A -> reader B) P Q g lo,
  safe true m P -> grow g m -> (forall a, P a -> fin (k a) Q lo) -> fin (rbind m k) Q (lo + g).
Proof.
  intros A B m k P Q g lo S0 G K r I. pose proof I as (R & L & _). destruct (S0 r R) as (a & r1 & E & Pa & St).
  destruct (K a Pa r1 (inb_step _ _ I St)) as (b & r2 & E2 & Qb & R2 & L2 & B2 & F2).
  exists b, r2. unfold rbind. rewrite E. cbn [obind]. split; [exact E2|]. split; [exact Qb|]. split; [exact R2|].
  pose proof St as (S1 & S2 & _). split; [congruence|]. split; [congruence|].
  intros O. destruct (F2 O) as [F3 F4]. split; [exact (rstep_res _ _ St F3)|]. pose proof (G r a r1 R E F3). lia.
Qed.

Lemma fin_ret_after : forall A B (m : reader A) (f : A -> B) P (Q : B -> Prop) lo,
  fin m P lo -> (forall a, P a -> Q (f a)) -> fin (rdo a <- m; rret (f a)) Q lo.
Proof.
  intros A B m f P Q lo F K r I. destruct (F r I) as (a & r' & E & Pa & H). exists (f a), r'.
  unfold rbind, rret. rewrite E. cbn [obind]. split; [reflexivity|]. split; [apply K; exact Pa|exact H].
Qed.

Lemma fin_imp : forall A (m : reader A) (P Q : A -> Prop) lo lo', fin m P lo -> (forall a, P a -> Q a) -> lo' <= lo -> fin m Q lo'.
Proof.
  intros A m P Q lo lo' F K L r I. destruct (F r I) as (a & r' & E & Pa & R & L1 & B1 & H). exists a, r'.
  split; [exact E|]. split; [apply K; exact Pa|]. split; [exact R|]. split; [exact L1|]. split; [exact B1|].
  intros O. destruct (H O). split; [assumption|lia].
Qed.

Lemma grow0 : forall A (m : reader A) P, safe true m P -> grow 0 m.
Proof. intros A m P S0 r a r' R E O. destruct (S0 r R) as (a1 & r1 & E1 & _ & S1). rewrite E in E1. inversion E1; subst. destruct S1 as (_ & _ & S3 & _). lia. Qed.

Lemma grow_byte : grow 1 get_byte.
Proof.
  intros r a r' (R1 & R2 & R3) E O. unfold get_byte in E. destruct (is_ok (r_res r)) eqn:Eo; cbn [negb] in E.
  2:{ inversion E; subst. rewrite O in Eo. discriminate Eo. }
  destruct (Z.leb_spec (r_len r) (r_pos r)); [inversion E; subst; discriminate O|].
  destruct (r_buf r) as [b|]; [|inversion E; subst; discriminate O].
  destruct (byte_at b (r_pos r)); cbn [obind] in E; try discriminate E. inversion E; subst.
  unfold set_pos. cbn [r_pos]. rewrite u16_id; lia.
Qed.

Lemma grow_mem : forall n, 0 <= n -> grow n (get_mem n).
Proof.
  intros n N r a r' (R1 & R2 & R3) E O. unfold get_mem in E. destruct (is_ok (r_res r)) eqn:Eo; cbn [negb] in E.
  2:{ inversion E; subst. rewrite O in Eo. discriminate Eo. }
  destruct (Z.ltb_spec (r_len r) (r_pos r + n)); [inversion E; subst; discriminate O|].
  destruct (r_buf r) as [b|]; [|inversion E; subst; discriminate O].
  destruct (slice b (r_pos r) n); cbn [obind] in E; try discriminate E. inversion E; subst.
  unfold set_pos. cbn [r_pos]. rewrite u16_id; lia.
Qed.

Lemma grow_mem_into : forall cap old n, 0 <= n -> grow n (get_mem_into cap old n).
Proof.
  intros cap old n N r a r' R E O. unfold get_mem_into in E.
  destruct (get_mem n r) as [[[v|] r1]| |] eqn:Em; cbn [obind] in E; try discriminate E.
  - destruct (cap <? n); [discriminate E|]. inversion E; subst. exact (grow_mem n N r _ _ R Em O).
  - inversion E; subst. exact (grow_mem n N r _ _ R Em O).
Qed.

Lemma grow_bind : forall A B (m : reader A) (k : A -> reader B) P Q g h,
  safe true m P -> grow g m -> (forall a, P a -> safe true (k a) Q) -> (forall a, P a -> grow h (k a)) -> grow (g + h) (rbind m k).
Proof.
  intros A B m k P Q g h S0 G S1 K r b r' R E O. destruct (S0 r R) as (a & r1 & E1 & Pa & St).
  unfold rbind in E. rewrite E1 in E. cbn [obind] in E.
  pose proof (rok_step _ _ _ R St) as R1. destruct (S1 a Pa r1 R1) as (b1 & r2 & E2 & _ & St2). rewrite E in E2. inversion E2; subst.
  pose proof (K a Pa r1 b1 r2 R1 E O). pose proof (G r a r1 R E1 (rstep_res _ _ St2 O)). lia.
Qed.

Lemma fin_advance : forall n, n <= 511 -> fin (advance n) (fun _ => True) n.
Proof.
  intros n N r (R & L & P). exists tt, (set_pos r (u16 (r_pos r + n))).
  split; [reflexivity|]. split; [exact Logic.I|]. unfold set_pos. cbn [r_len r_buf r_res r_pos].
  destruct R as (R1 & R2 & R3).
  split. { unfold rok. cbn [r_len r_buf r_res r_pos]. pose proof (u16_range (r_pos r + n)). auto. }
  split; [reflexivity|]. split; [reflexivity|]. intros O. split; [exact O|]. specialize (P O).
  destruct (Z.lt_ge_cases (r_pos r + n) 0). { pose proof (u16_range (r_pos r + n)). lia. }
  rewrite u16_id by lia. lia.
Qed.

Lemma fin_fail : forall A (a : A) (P : A -> Prop) lo, P a -> fin (rdo _ <- fail_parse; rret a) P lo.
Proof.
  intros A a P lo Pa r (R & L & _). exists a, (set_res r PError).
  split; [reflexivity|]. split; [exact Pa|]. split; [exact R|]. split; [reflexivity|]. split; [reflexivity|].
  intros O. discriminate O.
Qed.

Lemma safe_put_nul : forall size v k, Z.of_nat (length v) = size -> 0 <= k < size ->
  safe true (put_nul v k) (fun w => Z.of_nat (length w) = size).
Proof.
  intros size v k L K r R. unfold put_nul. destruct (Nat.ltb_spec (Z.to_nat k) (length v)); [|lia].
  eexists _, r. split; [reflexivity|]. split; [|apply rstep_refl].
  rewrite !app_length, firstn_length, skipn_length. cbn [length]. lia.
Qed.

Lemma fin_id : forall size n c, 1 <= size -> 0 <= n <= 511 -> lid_ok size c -> fin (get_id size n c) (lid_ok size) 0.
Proof.
  intros size n c Z0 N C. unfold get_id. destruct (Z.eqb_spec n 0); [apply fin_safe, safe_ret; exact C|].
  cbv zeta. destruct (Z.ltb_spec (size - 1) (n - 1)).
  - apply (fin_ret_after _ _ _ (fun _ => mkLid (i_str c) (i_sub c) (i_valid c) (n - 1)) (fun _ => True)); [|intros; exact C].
    apply (fin_imp _ _ (fun _ => True) _ n); [apply fin_advance; lia|auto|lia].
  - apply fin_safe. eapply safe_bind; [apply safe_byte|intros s _].
    eapply safe_bind; [apply safe_mem_into; [lia|exact C]|intros v V].
    eapply safe_bind; [apply (safe_put_nul size); [exact V|lia]|intros w W]. apply safe_ret. exact W.
Qed.

Lemma fin_ttl : forall n x, fin (get_ttl n x) (fun _ => True) 0.
Proof.
  intros n x. unfold get_ttl. destruct (n =? 2); cbn [negb]; [|apply fin_fail; exact Logic.I].
  apply fin_safe. eapply safe_imp; [apply safe_u16|auto].
Qed.

Lemma fin_desc : forall ds n d, 1 <= ds -> 0 <= n <= 511 -> Z.of_nat (length (d_str d)) = ds ->
  fin (get_desc ds n d) (fun d' => Z.of_nat (length (d_str d')) = ds) 0.
Proof.
  intros ds n d D N L. unfold get_desc. destruct (Z.ltb_spec (ds - 1) n).
  - apply (fin_ret_after _ _ _ (fun _ => d) (fun _ => True)); [|intros; exact L].
    apply (fin_imp _ _ (fun _ => True) _ n); [apply fin_advance; lia|auto|lia].
  - apply fin_safe. eapply safe_bind; [apply safe_mem_into; [lia|exact L]|intros v V].
    eapply safe_bind; [apply (safe_put_nul ds); [exact V|lia]|intros w W]. apply safe_ret. exact W.
Qed.

Lemma fin_mgmt : forall n, 0 <= n <= 511 -> fin (get_mgmt n) (fun g => length (g_val g) = 31%nat) 0.
Proof.
  intros n N. unfold get_mgmt.
  apply (fin_imp _ _ (fun g => length (g_val g) = 31%nat) _ (-1 + 1)); [|auto|lia].
  apply (fin_bind _ _ _ _ byte); [apply safe_byte|apply grow_byte|].
  intros b Hb. cbv zeta.
  destruct (((if b =? 0 then 18446744073709551615 else b - 1) <? 1) || (31 <? (if b =? 0 then 18446744073709551615 else b - 1))) eqn:Eb.
  - apply (fin_ret_after _ _ _ (fun _ => mkMgmt (zeros 31) 0 (if b =? 0 then 18446744073709551615 else b - 1) 0 0 false) (fun _ => True)); [|reflexivity].
    apply (fin_imp _ _ (fun _ => True) _ (n - 1)); [apply fin_advance; lia|auto|lia].
  - apply orb_false_iff in Eb. destruct Eb as [E1 E2]. apply Z.ltb_ge in E1, E2. unfold byte in Hb.
    apply (fin_imp _ _ (fun g => length (g_val g) = 31%nat) _ (0 + 0)); [|auto|lia].
    apply (fin_bind _ _ _ _ byte); [apply safe_byte|exact (grow0 _ _ _ (safe_byte true))|]. intros s _.
    apply (fin_imp _ _ (fun g => length (g_val g) = 31%nat) _ (0 + 0)); [|auto|lia].
    assert (SM : safe true (get_mem_into 31 (zeros 31) (if b =? 0 then 18446744073709551615 else b - 1)) (fun v => Z.of_nat (length v) = 31)).
    { apply safe_mem_into; [lia|reflexivity]. }
    apply (fin_bind _ _ _ _ (fun v => Z.of_nat (length v) = 31)); [exact SM|exact (grow0 _ _ _ SM)|]. intros v V.
    apply (fin_imp _ _ (fun g => length (g_val g) = 31%nat) _ (0 + 0)); [|auto|lia].
    apply (fin_bind _ _ _ _ byte); [apply safe_byte|exact (grow0 _ _ _ (safe_byte true))|]. intros is _.
    apply (fin_imp _ _ (fun g => length (g_val g) = 31%nat) _ (0 + 0)); [|auto|lia].
    apply (fin_bind _ _ _ _ u32v); [apply safe_u32|exact (grow0 _ _ _ (safe_u32 true))|]. intros iv _.
    apply (fin_imp _ _ (fun g => length (g_val g) = 31%nat) _ (0 + 0)); [|auto|lia].
    apply (fin_bind _ _ _ _ byte); [apply safe_byte|exact (grow0 _ _ _ (safe_byte true))|]. intros oid Ho. unfold byte in Ho.
    apply (fin_ret_after _ _ _ (fun _ => mkMgmt v s (if b =? 0 then 18446744073709551615 else b - 1) is iv true) (fun _ => True)); [|intros; cbn [g_val]; lia].
    apply (fin_imp _ _ (fun _ => True) _ oid); [apply fin_advance; lia|auto|lia].
Qed.

Lemma fin_delay : forall n d, fin (get_delay n d) (fun _ => True) 0.
Proof.
  intros n d. unfold get_delay. destruct (n =? 24); cbn [negb]; [|apply fin_fail; exact Logic.I].
  apply fin_safe. repeat sstep.
Qed.

Lemma fin_status : forall n s, length s = 4%nat -> fin (get_status n s) (fun v => length v = 4%nat) 0.
Proof.
  intros n s L. unfold get_status. destruct (n =? 8); cbn [negb]; [|apply fin_fail; exact L].
  apply fin_safe. eapply safe_imp; [apply safe_mem_into; lia|cbv beta; intros v V; lia].
Qed.

Lemma fin_mac : forall n s, length s = 6%nat -> fin (get_mac n s) (fun v => length v = 6%nat) 0.
Proof.
  intros n s L. unfold get_mac. destruct (n =? 10); cbn [negb]; [|apply fin_fail; exact L].
  apply fin_safe. eapply safe_imp; [apply safe_mem_into; lia|cbv beta; intros v V; lia].
Qed.

Lemma fin_phy : forall n, fin (get_phy n) (fun _ => True) 0.
Proof.
  intros n. unfold get_phy. destruct (n =? 9); cbn [negb]; [|apply fin_fail; exact Logic.I].
  apply fin_safe. repeat sstep.
Qed.

Lemma safe_org : forall o, org_ok o -> safe true (get_org o) org_ok.
Proof.
  intros o O. unfold get_org. eapply safe_bind; [apply safe_mem_into; unfold org_ok in O; lia|intros i Hi].
  eapply safe_bind; [apply safe_byte|intros s _]. apply safe_ret. unfold org_ok. cbn [fst]. cbv beta in Hi. lia.
Qed.

Lemma grow_org : forall o, org_ok o -> grow 4 (get_org o).
Proof.
  intros o O. unfold get_org. change 4 with (3 + 1). unfold org_ok in O.
  apply (grow_bind _ _ _ _ (fun v => Z.of_nat (length v) = 3) (fun _ => True)).
  - apply safe_mem_into; lia.
  - apply grow_mem_into. lia.
  - intros a _. eapply safe_bind; [apply safe_byte|intros s _]. apply safe_ret. exact Logic.I.
  - intros a _. change 1 with (1 + 0). apply (grow_bind _ _ _ _ byte (fun _ => True)).
    + apply safe_byte.
    + apply grow_byte.
    + intros s _. apply safe_ret. exact Logic.I.
    + intros s _ r x r' R E _. unfold rret in E. inversion E; subst. lia.
Qed.

Definition res_ok (ds : Z) (x : peer * (list Z * Z)) : Prop := peer_ok ds (fst x) /\ org_ok (snd x).

Lemma fin_one : forall ds t n o p, 1 <= ds -> 0 <= n <= 511 -> peer_ok ds p -> org_ok o ->
  fin (one_tlv ds t n o p) (res_ok ds) 0.
Proof.
  intros ds t n o p D N P O. pose proof P as (P1 & P2 & P3 & P4 & P5 & P6). unfold one_tlv.
  assert (K : forall x, peer_ok ds x -> res_ok ds (x, o)) by (intros x X; split; [exact X|exact O]).
  destruct (t =? 1).
  { apply (fin_ret_after _ _ _ (fun c => (with_cid p c, o)) (lid_ok cid_size)); [apply fin_id; [unfold cid_size; lia|exact N|exact P1]|].
    intros c C. apply K. unfold peer_ok, with_cid. cbn; repeat split; assumption. }
  destruct (t =? 2).
  { apply (fin_ret_after _ _ _ (fun c => (with_pid p c, o)) (lid_ok pid_size)); [apply fin_id; [unfold pid_size; lia|exact N|exact P2]|].
    intros c C. apply K. unfold peer_ok, with_pid. cbn; repeat split; assumption. }
  destruct (t =? 3).
  { apply (fin_ret_after _ _ _ (fun c => (with_ttl p c, o)) (fun _ => True)); [apply fin_ttl|].
    intros c C. apply K. unfold peer_ok, with_ttl. cbn; repeat split; assumption. }
  destruct (t =? 4).
  { apply (fin_ret_after _ _ _ (fun c => (with_desc p c, o)) (fun d' => Z.of_nat (length (d_str d')) = ds)); [apply fin_desc; auto|].
    intros c C. apply K. unfold peer_ok, with_desc. cbn; repeat split; assumption. }
  destruct (t =? 8).
  { apply (fin_ret_after _ _ _ (fun g => (if is_ipv4 g then with_mgmt p g else p, o)) (fun g => length (g_val g) = 31%nat)); [apply fin_mgmt; exact N|].
    intros c C. apply K. destruct (is_ipv4 c); [|exact P]. unfold peer_ok, with_mgmt. cbn; repeat split; assumption. }
  destruct (t =? 127).
  2:{ apply (fin_ret_after _ _ _ (fun _ => (p, o)) (fun _ => True)); [|intros _ _; apply K; exact P].
      apply (fin_imp _ _ (fun _ => True) _ n); [apply fin_advance; lia|auto|lia]. }
  apply (fin_imp _ _ (res_ok ds) _ (-4 + 4)); [|auto|lia].
  apply (fin_bind _ _ _ _ org_ok); [apply safe_org; exact O|apply grow_org; exact O|]. intros o' O'.
  assert (K' : forall x, peer_ok ds x -> res_ok ds (x, o')) by (intros x X; split; [exact X|exact O']).
  assert (A : fin (rdo _ <- advance (n - 4); rret (p, o')) (res_ok ds) (-4)).
  { apply (fin_ret_after _ _ _ (fun _ => (p, o')) (fun _ => True)); [|intros _ _; apply K'; exact P].
    apply (fin_imp _ _ (fun _ => True) _ (n - 4)); [apply fin_advance; lia|auto|lia]. }
  destruct (bytes_eqb org_pnio (fst o')); [|destruct (bytes_eqb org_ieee (fst o'))]; [| |exact A].
  - destruct (snd o' =? 1); [|destruct (snd o' =? 2); [|destruct (snd o' =? 5)]]; [| | |exact A];
      (eapply fin_imp; [|intros a Ha; exact Ha|instantiate (1 := 0); lia]).
    + apply (fin_ret_after _ _ _ (fun d => (with_delay p d, o')) (fun _ => True)); [apply fin_delay|].
      intros c C. apply K'. unfold peer_ok, with_delay. cbn; repeat split; assumption.
    + apply (fin_ret_after _ _ _ (fun d => (with_status p d, o')) (fun v => length v = 4%nat)); [apply fin_status; exact P5|].
      intros c C. apply K'. unfold peer_ok, with_status. cbn; repeat split; assumption.
    + apply (fin_ret_after _ _ _ (fun d => (with_mac p d, o')) (fun v => length v = 6%nat)); [apply fin_mac; exact P6|].
      intros c C. apply K'. unfold peer_ok, with_mac. cbn; repeat split; assumption.
  - destruct (snd o' =? 1); [|exact A]. eapply fin_imp; [|intros a Ha; exact Ha|instantiate (1 := 0); lia].
    apply (fin_ret_after _ _ _ (fun d => (with_phy p d, o')) (fun _ => True)); [apply fin_phy|].
    intros c C. apply K'. unfold peer_ok, with_phy. cbn; repeat split; assumption.
Qed.

Lemma safe_tlv : forall r, rok r -> exists t n r', get_tlv r = Ok ((t, n), r') /\ 0 <= n <= 511 /\ rstep true r r' /\
  (t <> 0 -> r_res r' = POk /\ r_pos r + 2 <= r_pos r' <= r_len r).
Proof.
  intros r R. unfold get_tlv. destruct (safe_u16 true r R) as (h & r1 & E & V & St). rewrite E. cbn [obind].
  assert (G : grow 2 get_u16).
  { intros s a s' Rs Es Os. unfold get_u16 in Es. destruct (is_ok (r_res s)) eqn:Eo; cbn [negb] in Es.
    2:{ inversion Es; subst. rewrite Os in Eo. discriminate Eo. }
    revert Es Os. change 2 with (1 + 1). apply (grow_bind _ _ _ _ byte (fun _ => True)); [apply safe_byte|apply grow_byte|intros; repeat sstep| |exact Rs].
    intros x _. change 1 with (1 + 0). apply (grow_bind _ _ _ _ byte (fun _ => True)); [apply safe_byte|apply grow_byte|intros; repeat sstep|].
    intros y _ u v u' _ Eu _. unfold rret in Eu. inversion Eu; subst. lia. }
  destruct (is_ok (r_res r1)) eqn:Eo.
  - eexists _, _, r1. split; [reflexivity|]. split.
    { change 511 with (Z.ones 9). rewrite Z.land_ones by lia. pose proof (Z.mod_pos_bound h (2 ^ 9) ltac:(lia)).
      change (2 ^ 9) with 512 in *. change (Z.ones 9) with 511. lia. }
    split; [exact St|]. intros _. apply is_ok_true in Eo. split; [exact Eo|].
    pose proof (G r h r1 R E Eo). destruct St as (_ & _ & S3 & _). lia.
  - exists 0, 0, r1. split; [reflexivity|]. split; [lia|]. split; [exact St|]. congruence.
Qed.

Lemma tlvs_ok : forall k ds o p r, 1 <= ds -> rok r -> r_len r <= 65000 -> peer_ok ds p -> org_ok o ->
  (1 <= k)%nat -> (r_res r = POk -> r_len r - r_pos r < Z.of_nat k) ->
  exists p' r', tlvs k ds o p r = Ok (p', r') /\ peer_ok ds p'.
Proof.
  induction k as [|k IH]; intros ds o p r D R L P O K M; [lia|].
  cbn [tlvs]. unfold rbind at 1. destruct (safe_tlv r R) as (t & n & r1 & E & N & St & T). rewrite E. cbn [obind fst snd].
  destruct (Z.eqb_spec t 0) as [Et|Et].
  { exists p, r1. split; [reflexivity|exact P]. }
  destruct (T Et) as [T1 T2]. pose proof (rok_step _ _ _ R St) as R1. pose proof St as (S1 & S2 & _).
  assert (I : inb r1) by (split; [exact R1|split; [lia|intros _; lia]]).
  destruct (fin_one ds t n o p D N P O r1 I) as (x & r2 & E2 & (X1 & X2) & R2 & L2 & _ & F2).
  unfold rbind. rewrite E2. cbn [obind]. pose proof (rstep_res _ _ St T1) as Or. specialize (M Or).
  apply IH; try assumption; try lia.
  intros O2. destruct (F2 O2). lia.
Qed.

Theorem C99_safe : forall ds o buf len, 1 <= ds -> length (fst o) = 3%nat ->
  Forall byte buf -> 0 <= len <= 65000 -> len <= Z.of_nat (length buf) ->
  exists res, parse ds o buf len = Ok res /\ match res with Some p => peer_ok ds p | None => True end.
Proof.
  intros ds o buf len D O B L M. unfold parse.
  destruct (tlvs_ok (S (Z.to_nat len)) ds o (peer0 ds) (mkRd (Some buf) len true POk 0)) as (p & r & E & P); try assumption.
  - unfold rok. cbn [r_pos r_len r_buf]. repeat split; try lia. exact B.
  - cbn [r_len]. lia.
  - apply peer0_ok. lia.
  - lia.
  - cbn [r_len r_pos]. lia.
  - rewrite E. cbn [obind]. eexists. split; [reflexivity|]. destruct (is_ok (r_res r)); [exact P|exact Logic.I].
Qed.
Print Assumptions C99_safe.

(** ** Nothing but the received bytes matters *)

Lemma ti_mem_into : forall cap old n, 0 <= n -> tail_indep (get_mem_into cap old n).
Proof.
  intros cap old n N a x y r v r' H L P E. unfold get_mem_into in *.
  destruct (get_mem n r) as [[w r1]| |] eqn:Em; cbn [obind] in E; try discriminate E.
  destruct (ti_mem n N a x y r w r1 H L P Em) as (E1 & B1 & L1 & P1). rewrite E1. cbn [obind].
  destruct w; [destruct (cap <? n); [discriminate E|]|]; inversion E; subst; auto.
Qed.

Lemma ti_advance : forall n, tail_indep (advance n).
Proof.
  intros n a x y r v r' H L P E. unfold advance in *. inversion E; subst. unfold set_pos, swap_tail. cbn [r_buf r_len r_be r_res r_pos].
  repeat split; auto. apply u16_range.
Qed.

Lemma ti_fail : tail_indep fail_parse.
Proof.
  intros a x y r v r' H L P E. unfold fail_parse in *. inversion E; subst. unfold set_res, swap_tail. cbn [r_buf r_len r_be r_res r_pos].
  repeat split; auto.
Qed.

Lemma ti_put_nul : forall s k, tail_indep (put_nul s k).
Proof.
  intros s k a x y r v r' H L P E. unfold put_nul in *. destruct (Nat.ltb (Z.to_nat k) (length s)); [|discriminate E].
  inversion E; subst. auto.
Qed.

Lemma ti_tlv : tail_indep get_tlv.
Proof.
  intros a x y r v r' H L P E. unfold get_tlv in *. destruct (get_u16 r) as [[h r1]| |] eqn:Eh; cbn [obind] in E; try discriminate E.
  destruct (ti_u16 a x y r h r1 H L P Eh) as (E1 & B1 & L1 & P1). rewrite E1. cbn [obind swap_tail r_res].
  destruct (is_ok (r_res r1)); inversion E; subst; auto.
Qed.

Ltac ti := repeat first
  [ apply ti_ret | apply ti_byte | apply ti_u16 | apply ti_u32 | apply ti_advance | apply ti_fail | apply ti_put_nul | apply ti_tlv
  | apply ti_mem_into; lia | apply ti_bind; [|intros ?] ].

Lemma ti_one : forall ds t n o p, 0 <= n -> tail_indep (one_tlv ds t n o p).
Proof.
  intros ds t n o p N. unfold one_tlv.
  assert (I : forall size c, tail_indep (get_id size n c)).
  { intros size c. unfold get_id. destruct (Z.eqb_spec n 0); [ti|]. cbv zeta. destruct (size - 1 <? n - 1); ti. }
  assert (T : forall x, tail_indep (get_ttl n x)) by (intros x; unfold get_ttl; destruct (negb (n =? 2)); ti).
  assert (S : forall d, tail_indep (get_desc ds n d)) by (intros d; unfold get_desc; destruct (ds - 1 <? n); ti).
  assert (G : tail_indep (get_mgmt n)).
  { unfold get_mgmt. apply ti_bind; [ti|]. intros b. cbv zeta.
    destruct (Z.ltb_spec (if b =? 0 then 18446744073709551615 else b - 1) 1); cbn [orb]; [ti|].
    destruct (31 <? (if b =? 0 then 18446744073709551615 else b - 1)); ti. }
  assert (Y : forall d, tail_indep (get_delay n d)) by (intros d; unfold get_delay; destruct (negb (n =? 24)); ti).
  assert (St : forall d, tail_indep (get_status n d)) by (intros d; unfold get_status; destruct (negb (n =? 8)); ti).
  assert (M : forall d, tail_indep (get_mac n d)) by (intros d; unfold get_mac; destruct (negb (n =? 10)); ti).
  assert (Ph : tail_indep (get_phy n)) by (unfold get_phy; destruct (negb (n =? 9)); ti).
  assert (O : tail_indep (get_org o)) by (unfold get_org; ti).
  destruct (t =? 1); [apply ti_bind; [apply I|intros; ti]|].
  destruct (t =? 2); [apply ti_bind; [apply I|intros; ti]|].
  destruct (t =? 3); [apply ti_bind; [apply T|intros; ti]|].
  destruct (t =? 4); [apply ti_bind; [apply S|intros; ti]|].
  destruct (t =? 8); [apply ti_bind; [apply G|intros; ti]|].
  destruct (t =? 127); [|ti].
  apply ti_bind; [apply O|]. intros o'.
  destruct (bytes_eqb org_pnio (fst o')).
  - destruct (snd o' =? 1); [apply ti_bind; [apply Y|intros; ti]|].
    destruct (snd o' =? 2); [apply ti_bind; [apply St|intros; ti]|].
    destruct (snd o' =? 5); [apply ti_bind; [apply M|intros; ti]|]. ti.
  - destruct (bytes_eqb org_ieee (fst o')); [|ti].
    destruct (snd o' =? 1); [apply ti_bind; [apply Ph|intros; ti]|]. ti.
Qed.

Lemma ti_tlvs : forall k ds o p, tail_indep (tlvs k ds o p).
Proof.
  induction k as [|k IH]; intros ds o p.
  { intros a x y r v r' H L P E. discriminate E. }
  cbn [tlvs]. intros a x y r v r' H L P E. unfold rbind in *.
  destruct (get_tlv r) as [[[t n] r1]| |] eqn:Et; cbn [obind] in E; try discriminate E.
  destruct (ti_tlv a x y r (t, n) r1 H L P Et) as (E1 & B1 & L1 & P1). rewrite E1. cbn [obind fst snd] in *.
  assert (N : 0 <= n).
  { unfold get_tlv in Et. destruct (get_u16 r) as [[h r2]| |]; cbn [obind] in Et; try discriminate Et.
    destruct (is_ok (r_res r2)); inversion Et; subst; [|lia]. apply Z.land_nonneg. right. lia. }
  destruct (t =? 0); [exact (ti_ret _ p a x y r1 v r' B1 L1 P1 E)|].
  destruct (one_tlv ds t n o p r1) as [[po r2]| |] eqn:Eo; cbn [obind] in E; try discriminate E.
  destruct (ti_one ds t n o p N a x y r1 po r2 B1 L1 P1 Eo) as (E2 & B2 & L2 & P2). rewrite E2. cbn [obind].
  exact (IH ds (snd po) (fst po) a x y r2 v r' B2 L2 P2 E).
Qed.

Lemma org_indep : forall o1 o2 r, org_ok o1 -> org_ok o2 -> rok r ->
  (exists x r', get_org o1 r = Ok (x, r') /\ get_org o2 r = Ok (x, r')) \/
  (exists x1 x2 r', get_org o1 r = Ok (x1, r') /\ get_org o2 r = Ok (x2, r') /\ r_res r' <> POk).
Proof.
  intros o1 o2 r O1 O2 R. unfold get_org, rbind, get_mem_into, org_ok in *.
  destruct (safe_mem true 3 ltac:(lia) r R) as (x & r1 & E & P & St). rewrite E. cbn [obind].
  destruct (safe_byte true r1 (rok_step _ _ _ R St)) as (s & r2 & E2 & _ & St2).
  destruct x as [v|].
  - destruct (Z.ltb_spec 3 3); [lia|]. cbn [obind]. rewrite E2. cbn [obind]. unfold rret.
    left. rewrite !skipn_all2 by (change (Z.to_nat 3) with 3%nat; lia). eexists _, _. split; reflexivity.
  - cbn [obind]. rewrite E2. cbn [obind]. unfold rret. right. eexists _, _, _. split; [reflexivity|]. split; [reflexivity|].
    assert (r_res r1 <> POk).
    { unfold get_mem in E. destruct (is_ok (r_res r)) eqn:Eo; cbn [negb] in E.
      - destruct (r_len r <? r_pos r + 3); [inversion E; subst; cbn; discriminate|].
        destruct (r_buf r); [|inversion E; subst; cbn; discriminate].
        destruct (slice l (r_pos r) 3); cbn [obind] in E; try discriminate E. 
      - inversion E; subst. intros X. rewrite X in Eo. discriminate Eo. }
    intros X. apply H. exact (rstep_res _ _ St2 X).
Qed.

Lemma one_other : forall ds t n o1 o2 p r x r', t <> 127 -> one_tlv ds t n o1 p r = Ok (x, r') ->
  snd x = o1 /\ one_tlv ds t n o2 p r = Ok ((fst x, o2), r').
Proof.
  intros ds t n o1 o2 p r x r' T E. unfold one_tlv in *.
  assert (G : forall A (m : reader A) (f : A -> peer), (rdo a <- m; rret (f a, o1)) r = Ok (x, r') ->
    snd x = o1 /\ (rdo a <- m; rret (f a, o2)) r = Ok ((fst x, o2), r')).
  { intros A m f F. unfold rbind, rret in *. destruct (m r) as [[a r1]| |]; cbn [obind] in *; try discriminate F.
    inversion F; subst. split; reflexivity. }
  destruct (t =? 1); [exact (G _ _ (fun c => with_cid p c) E)|].
  destruct (t =? 2); [exact (G _ _ (fun c => with_pid p c) E)|].
  destruct (t =? 3); [exact (G _ _ (fun c => with_ttl p c) E)|].
  destruct (t =? 4); [exact (G _ _ (fun c => with_desc p c) E)|].
  destruct (t =? 8); [exact (G _ _ (fun g => if is_ipv4 g then with_mgmt p g else p) E)|].
  destruct (Z.eqb_spec t 127); [contradiction|]. exact (G _ _ (fun _ => p) E).
Qed.

Lemma tlvs_dead : forall k ds o p r p' r', r_res r <> POk -> tlvs k ds o p r = Ok (p', r') -> r_res r' <> POk.
Proof.
  intros [|k] ds o p r p' r' D E; [discriminate E|]. cbn [tlvs] in E. unfold rbind in E.
  assert (Ho : is_ok (r_res r) = false) by (destruct (is_ok (r_res r)) eqn:X; [apply is_ok_true in X; contradiction|reflexivity]).
  assert (T : get_tlv r = Ok ((0, 0), r)) by (unfold get_tlv, get_u16; rewrite Ho; cbn [negb obind]; rewrite Ho; reflexivity).
  rewrite T in E. cbn [obind fst snd] in E. change (0 =? 0) with true in E. cbv iota in E. unfold rret in E. inversion E; subst. exact D.
Qed.

Lemma tlvs_org_indep : forall k ds o1 o2 p r p1 r1 p2 r2, 1 <= ds -> rok r -> r_len r <= 65000 -> peer_ok ds p -> org_ok o1 -> org_ok o2 ->
  tlvs k ds o1 p r = Ok (p1, r1) -> tlvs k ds o2 p r = Ok (p2, r2) ->
  (p1 = p2 /\ r1 = r2) \/ (r_res r1 <> POk /\ r_res r2 <> POk).
Proof.
  induction k as [|k IH]; intros ds o1 o2 p r p1 r1 p2 r2 D R L P O1 O2 E1 E2; [discriminate E1|].
  cbn [tlvs] in E1, E2. unfold rbind in E1, E2.
  destruct (safe_tlv r R) as (t & n & ra & E & N & St & T). rewrite E in E1, E2. cbn [obind fst snd] in E1, E2.
  destruct (Z.eqb_spec t 0) as [Et|Et].
  { unfold rret in *. left. split; congruence. }
  destruct (T Et) as [T1 T2]. pose proof (rok_step _ _ _ R St) as R1. pose proof St as (S1 & S2 & _).
  assert (I : inb ra) by (split; [exact R1|split; [lia|intros _; lia]]).
  destruct (fin_one ds t n o1 p D N P O1 ra I) as ([x1 y1] & rb & F1 & (X1 & Y1) & R2 & L2 & _ & Z1).
  destruct (fin_one ds t n o2 p D N P O2 ra I) as ([x2 y2] & rc & F2 & (X2 & Y2) & R3 & L3 & _ & Z2).
  rewrite F1 in E1. rewrite F2 in E2. cbn [obind fst snd] in *.
  destruct (Z.eq_dec t 127) as [E127|N127].
  - subst t. unfold one_tlv in F1, F2. change (127 =? 1) with false in *. change (127 =? 2) with false in *. change (127 =? 3) with false in *.
    change (127 =? 4) with false in *. change (127 =? 8) with false in *. change (127 =? 127) with true in *. cbv iota in F1, F2.
    destruct (org_indep o1 o2 ra O1 O2 R1) as [(x & rd0 & G1 & G2)|(xa & xb & rd0 & G1 & G2 & G3)].
    + unfold rbind in F1, F2 at 1. rewrite G1 in F1. rewrite G2 in F2. cbn [obind] in F1, F2.
      unfold rbind in F2. rewrite F1 in F2. inversion F2; subst x2 y2 rc.
      apply (IH ds y1 y1 x1 rb p1 r1 p2 r2); try assumption; lia.
    + right.
      assert (Q1 : r_res rb <> POk /\ r_res rc <> POk).
      { destruct (safe_org o1 O1 ra R1) as (za & ry & Ga & _ & Gs). rewrite G1 in Ga. inversion Ga; subst za ry.
        pose proof (inb_step _ _ I Gs) as I2.
        destruct (safe_org o1 O1 ra R1) as (za & ry & Ga1 & Oa & _). rewrite G1 in Ga1. inversion Ga1; subst za ry.
        destruct (safe_org o2 O2 ra R1) as (za & ry & Gb1 & Ob & _). rewrite G2 in Gb1. inversion Gb1; subst za ry.
        assert (W : forall o', org_ok o' -> forall z rz, (if bytes_eqb org_pnio (fst o')
          then if snd o' =? 1 then rdo d <- get_delay n (p_delay p); rret (with_delay p d, o')
               else if snd o' =? 2 then rdo s <- get_status n (p_status p); rret (with_status p s, o')
               else if snd o' =? 5 then rdo m <- get_mac n (p_mac p); rret (with_mac p m, o')
               else rdo _ <- advance (n - 4); rret (p, o')
          else if bytes_eqb org_ieee (fst o')
          then if snd o' =? 1 then rdo k0 <- get_phy n; rret (with_phy p k0, o') else rdo _ <- advance (n - 4); rret (p, o')
          else rdo _ <- advance (n - 4); rret (p, o')) rd0 = Ok (z, rz) -> r_res rz <> POk).
        { pose proof P as (_ & _ & _ & _ & P5 & P6).
          assert (V : forall A B (m : reader A) (f : A -> B) PP lo, fin m PP lo -> forall z rz, (rdo a <- m; rret (f a)) rd0 = Ok (z, rz) -> r_res rz <> POk).
          { intros A B m f PP lo F z rz Ez. destruct (F rd0 I2) as (a & rq & Eq & _ & _ & _ & _ & Zq). unfold rbind, rret in Ez.
            rewrite Eq in Ez. cbn [obind] in Ez. inversion Ez; subst. intros X. apply G3. apply Zq. exact X. }
          intros o' Oo z rz Ez.
          destruct (bytes_eqb org_pnio (fst o')).
          - destruct (snd o' =? 1); [exact (V _ _ _ (fun d => (with_delay p d, o')) _ _ (fin_delay n (p_delay p)) z rz Ez)|].
            destruct (snd o' =? 2); [exact (V _ _ _ (fun d => (with_status p d, o')) _ _ (fin_status n (p_status p) P5) z rz Ez)|].
            destruct (snd o' =? 5); [exact (V _ _ _ (fun d => (with_mac p d, o')) _ _ (fin_mac n (p_mac p) P6) z rz Ez)|].
            exact (V _ _ _ (fun _ => (p, o')) _ _ (fin_advance (n - 4) ltac:(lia)) z rz Ez).
          - destruct (bytes_eqb org_ieee (fst o')).
            + destruct (snd o' =? 1); [exact (V _ _ _ (fun d => (with_phy p d, o')) _ _ (fin_phy n) z rz Ez)|].
              exact (V _ _ _ (fun _ => (p, o')) _ _ (fin_advance (n - 4) ltac:(lia)) z rz Ez).
            + exact (V _ _ _ (fun _ => (p, o')) _ _ (fin_advance (n - 4) ltac:(lia)) z rz Ez). }
        unfold rbind in F1 at 1. rewrite G1 in F1. cbn [obind] in F1. unfold rbind in F2 at 1. rewrite G2 in F2. cbn [obind] in F2.
        split; [exact (W xa Oa _ _ F1)|exact (W xb Ob _ _ F2)]. }
      destruct Q1 as [Q1 Q2]. split; [exact (tlvs_dead k ds y1 x1 rb p1 r1 Q1 E1)|exact (tlvs_dead k ds y2 x2 rc p2 r2 Q2 E2)].
  - destruct (one_other ds t n o1 o2 p ra _ _ N127 F1) as [H1 H2]. rewrite F2 in H2. cbn [fst] in H2. inversion H2; subst x2 y2 rc.
    apply (IH ds y1 o2 x1 rb p1 r1 p2 r2); try assumption; lia.
Qed.

(** The same bytes give the same result, whatever is behind them in memory and
    whatever the uninitialised variables contain. *)
Theorem C99_only_received : forall ds o o' data x y, 1 <= ds -> length (fst o) = 3%nat -> length (fst o') = 3%nat ->
  Forall byte (data ++ x) -> Forall byte (data ++ y) -> Z.of_nat (length data) <= 65000 ->
  parse ds o (data ++ x) (Z.of_nat (length data)) = parse ds o' (data ++ y) (Z.of_nat (length data)).
Proof.
  intros ds o o' data x y D O O' B B' L. unfold parse.
  assert (T : forall oo z, length (fst oo) = 3%nat -> Forall byte (data ++ z) -> exists p r,
    tlvs (S (Z.to_nat (Z.of_nat (length data)))) ds oo (peer0 ds) (mkRd (Some (data ++ z)) (Z.of_nat (length data)) true POk 0) = Ok (p, r)).
  { intros oo z Oz Bz. destruct (tlvs_ok (S (Z.to_nat (Z.of_nat (length data)))) ds oo (peer0 ds) (mkRd (Some (data ++ z)) (Z.of_nat (length data)) true POk 0)) as (p & r & E & _);
      cbn [r_len r_pos]; try assumption; try lia.
    - unfold rok. cbn [r_pos r_len r_buf]. rewrite app_length. repeat split; try lia. exact Bz.
    - apply peer0_ok. lia.
    - exists p, r. exact E. }
  destruct (T o x O B) as (p1 & r1 & E1). destruct (T o' x O' B) as (p2 & r2 & E2).
  destruct (ti_tlvs _ ds o' (peer0 ds) data x y (mkRd (Some (data ++ x)) (Z.of_nat (length data)) true POk 0) p2 r2 eq_refl eq_refl (Z.le_refl 0) E2) as (E3 & _).
  unfold swap_tail in E3 at 1. cbn [r_len r_be r_res r_pos] in E3. rewrite E1, E3. cbn [obind swap_tail r_res].
  assert (R0 : rok (mkRd (Some (data ++ x)) (Z.of_nat (length data)) true POk 0)).
  { unfold rok. cbn [r_pos r_len r_buf]. rewrite app_length. repeat split; try lia. exact B. }
  destruct (tlvs_org_indep _ ds o o' (peer0 ds) _ p1 r1 p2 r2 D R0 L (peer0_ok ds ltac:(lia)) O O' E1 E2) as [[Ep Er]|[N1 N2]].
  - rewrite Ep, Er. reflexivity.
  - destruct (is_ok (r_res r1)) eqn:X1; [apply is_ok_true in X1; contradiction|].
    destruct (is_ok (r_res r2)) eqn:X2; [apply is_ok_true in X2; contradiction|]. reflexivity.
Qed.
Print Assumptions C99_only_received.

(** * C100: what well formed frames mean *)

(** ** Specification: the elements of a frame *)
Inductive elem :=
  | EChassis (sub : Z) (id : list Z)
  | EPort (sub : Z) (id : list Z)
  | ETtl (seconds : Z)
  | EDescription (text : list Z)
  | EManagement (sub : Z) (address : list Z) (ifsub ifnumber : Z) (oid : list Z)
  | EDelay (rxl rxr txl txr cable : Z)
  | EPortStatus (status : list Z)
  | EChassisMac (mac : list Z)
  | ELink (autoneg capabilities mau : Z)
  | EOrgOther (org : list Z) (sub : Z) (content : list Z)
  | EOther (type : Z) (content : list Z).

Definition etype (e : elem) : Z :=
  match e with
  | EChassis _ _ => 1 | EPort _ _ => 2 | ETtl _ => 3 | EDescription _ => 4 | EManagement _ _ _ _ _ => 8
  | EDelay _ _ _ _ _ | EPortStatus _ | EChassisMac _ | ELink _ _ _ | EOrgOther _ _ _ => 127
  | EOther t _ => t
  end.
Definition econtent (e : elem) : list Z :=
  match e with
  | EChassis s i | EPort s i => s :: i
  | ETtl v => e16 true v
  | EDescription s => s
  | EManagement s a i n o => Z.of_nat (1 + length a) :: s :: a ++ i :: e32 true n ++ Z.of_nat (length o) :: o
  | EDelay a b c d f => [0; 14; 207; 1] ++ e32 true a ++ e32 true b ++ e32 true c ++ e32 true d ++ e32 true f
  | EPortStatus s => [0; 14; 207; 2] ++ s
  | EChassisMac m => [0; 14; 207; 5] ++ m
  | ELink a c m => [0; 18; 15; 1; a] ++ e16 true c ++ e16 true m
  | EOrgOther g s c => g ++ s :: c
  | EOther _ c => c
  end.
(** IEEE 802.1AB: 7 bits of type and 9 bits of length, then the content. *)
Definition eencode (e : elem) : list Z := e16 true (etype e * 512 + Z.of_nat (length (econtent e))) ++ econtent e.

Definition u32r (v : Z) : Prop := 0 <= v < 4294967296.
Definition ewf (ds : Z) (e : elem) : Prop :=
  (length (econtent e) <= 511)%nat /\
  match e with
  | EChassis s i => byte s /\ (length i <= 240)%nat
  | EPort s i => byte s /\ (length i <= 255)%nat
  | ETtl v => 0 <= v < 65536
  | EDescription s => Z.of_nat (length s) < ds
  | EManagement s a i n o => byte s /\ (1 <= length a <= 31)%nat /\ byte i /\ u32r n /\ (length o <= 255)%nat
  | EDelay a b c d f => u32r a /\ u32r b /\ u32r c /\ u32r d /\ u32r f
  | EPortStatus s => length s = 4%nat
  | EChassisMac m => length m = 6%nat
  | ELink a c m => byte a /\ 0 <= c < 65536 /\ 0 <= m < 65536
  | EOrgOther g s c => length g = 3%nat /\ byte s /\
      ~ (g = [0; 14; 207] /\ (s = 1 \/ s = 2 \/ s = 5)) /\ ~ (g = [0; 18; 15] /\ s = 1)
  | EOther t _ => 0 < t < 127 /\ ~ In t [1; 2; 3; 4; 8]
  end.

(** What is reported about a neighbour (pf_lldp_get_peer_...). *)
Record view := mkView {
  v_chassis : option (Z * list Z); v_port : option (Z * list Z); v_ttl : Z; v_desc : option (list Z);
  v_mgmt : option (list Z * Z * Z); v_delay : option (Z * Z * Z * Z * Z);
  v_status : list Z; v_mac : list Z; v_link : option (bool * bool * Z * Z) }.
Definition view0 : view := mkView None None 0 None None None [0; 0; 0; 0] [0; 0; 0; 0; 0; 0] None.

(** The last element of each kind counts. *)
Definition learn (v : view) (e : elem) : view :=
  match e with
  | EChassis s i => mkView (Some (s, i)) (v_port v) (v_ttl v) (v_desc v) (v_mgmt v) (v_delay v) (v_status v) (v_mac v) (v_link v)
  | EPort s i => mkView (v_chassis v) (Some (s, i)) (v_ttl v) (v_desc v) (v_mgmt v) (v_delay v) (v_status v) (v_mac v) (v_link v)
  | ETtl n => mkView (v_chassis v) (v_port v) n (v_desc v) (v_mgmt v) (v_delay v) (v_status v) (v_mac v) (v_link v)
  | EDescription s => mkView (v_chassis v) (v_port v) (v_ttl v) (Some s) (v_mgmt v) (v_delay v) (v_status v) (v_mac v) (v_link v)
  | EManagement s a i n _ =>
      if (s =? 1) && (length a =? 4)%nat (* only IPv4 addresses are of interest *)
      then mkView (v_chassis v) (v_port v) (v_ttl v) (v_desc v) (Some (a, i, n)) (v_delay v) (v_status v) (v_mac v) (v_link v)
      else v
  | EDelay a b c d f =>
      mkView (v_chassis v) (v_port v) (v_ttl v) (v_desc v) (v_mgmt v) (Some (a, b, c, d, f)) (v_status v) (v_mac v) (v_link v)
  | EPortStatus s => mkView (v_chassis v) (v_port v) (v_ttl v) (v_desc v) (v_mgmt v) (v_delay v) s (v_mac v) (v_link v)
  | EChassisMac m => mkView (v_chassis v) (v_port v) (v_ttl v) (v_desc v) (v_mgmt v) (v_delay v) (v_status v) m (v_link v)
  | ELink a c m =>
      mkView (v_chassis v) (v_port v) (v_ttl v) (v_desc v) (v_mgmt v) (v_delay v) (v_status v) (v_mac v)
        (Some (Z.testbit a 0, Z.testbit a 1, c, m))
  | EOrgOther _ _ _ | EOther _ _ => v
  end.

(** What the stored record says. *)
Definition id_view (c : lid) : option (Z * list Z) :=
  if i_valid c then Some (i_sub c, firstn (Z.to_nat (i_len c)) (i_str c)) else None.
Definition view_of (p : peer) : view :=
  mkView (id_view (p_cid p)) (id_view (p_pid p)) (p_ttl p)
    (if d_valid (p_desc p) then Some (firstn (Z.to_nat (d_len (p_desc p))) (d_str (p_desc p))) else None)
    (if g_valid (p_mgmt p) then Some (firstn (Z.to_nat (g_len (p_mgmt p))) (g_val (p_mgmt p)), g_ifsub (p_mgmt p), g_ifval (p_mgmt p)) else None)
    (let y := p_delay p in if y_valid y then Some (y_rxl y, y_rxr y, y_txl y, y_txr y, y_cable y) else None)
    (p_status p) (p_mac p)
    (let k := p_phy p in if k_valid k then Some (k_sup k, k_ena k, k_cap k, k_mau k) else None).
(** Names are terminated strings inside their arrays. *)
Definition id_term (size : Z) (c : lid) : Prop :=
  i_valid c = true -> 0 <= i_len c < size /\ nth (Z.to_nat (i_len c)) (i_str c) 1 = 0.
Definition terminated (ds : Z) (p : peer) : Prop :=
  id_term cid_size (p_cid p) /\ id_term pid_size (p_pid p) /\
  (d_valid (p_desc p) = true -> 0 <= d_len (p_desc p) < ds /\ nth (Z.to_nat (d_len (p_desc p))) (d_str (p_desc p)) 1 = 0).

(** ** Proof *)

Lemma dec_mem_into : forall be cap old l, Z.of_nat (length l) <= cap ->
  dec be be (get_mem_into cap old (Z.of_nat (length l))) l (l ++ skipn (length l) old).
Proof.
  intros be cap old l Lc pre post len L M N. unfold get_mem_into.
  rewrite C27_mem by (rewrite ?app_length in *; lia).
  destruct (Z.leb_spec (Z.of_nat (length pre) + Z.of_nat (length l)) len); [|lia]. cbn [obind].
  destruct (Z.ltb_spec cap (Z.of_nat (length l))); [lia|]. rewrite !Nat2Z.id.
  rewrite skipn_app, skipn_all, Nat.sub_diag. cbn [skipn app].
  rewrite firstn_app, firstn_all, Nat.sub_diag. cbn [firstn]. rewrite app_nil_r.
  do 3 f_equal. lia.
Qed.

Lemma dec_bind_nil : forall A B be be' be'' (m : reader A) (k : A -> reader B) x a b,
  dec be be' m x a -> dec be' be'' (k a) [] b -> dec be be'' (rbind m k) x b.
Proof. intros A B be be' be'' m k x a b M K. rewrite <- (app_nil_r x). eapply dec_bind; [exact M|exact K]. Qed.

Lemma dec_put_nul : forall be v k, (k < length v)%nat ->
  dec be be (put_nul v (Z.of_nat k)) [] (firstn k v ++ [0] ++ skipn (k + 1) v).
Proof.
  intros be v k K pre post len L M N. unfold put_nul. rewrite Nat2Z.id. destruct (Nat.ltb_spec k (length v)); [|lia].
  cbn [length]. rewrite Nat.add_0_r. reflexivity.
Qed.

Lemma dec_advance : forall be l n, n = Z.of_nat (length l) -> dec be be (advance n) l tt.
Proof.
  intros be l n -> pre post len L M N. unfold advance, set_pos. cbn [r_buf r_len r_be r_res r_pos].
  rewrite u16_id by lia. do 3 f_equal. lia.
Qed.

Lemma dec_id : forall size c s i, byte s -> Z.of_nat (length i) < size -> lid_ok size c ->
  exists str, dec true true (get_id size (Z.of_nat (length (s :: i))) c) (s :: i) (mkLid str s true (Z.of_nat (length i))) /\
    Z.of_nat (length str) = size /\ firstn (length i) str = i /\ nth (length i) str 1 = 0.
Proof.
  intros size c s i B L C. unfold lid_ok in C.
  set (w := i ++ skipn (length i) (i_str c)).
  assert (Lw : Z.of_nat (length w) = size) by (unfold w; rewrite app_length, skipn_length; lia).
  exists (firstn (length i) w ++ [0] ++ skipn (length i + 1) w).
  assert (Fw : firstn (length i) w = i) by (unfold w; rewrite firstn_app, Nat.sub_diag, firstn_all; cbn [firstn]; apply app_nil_r).
  split; [|split; [|split]].
  - unfold get_id. cbn [length]. destruct (Z.eqb_spec (Z.of_nat (S (length i))) 0); [lia|]. cbv zeta.
    destruct (Z.ltb_spec (size - 1) (Z.of_nat (S (length i)) - 1)); [lia|].
    replace (Z.of_nat (S (length i)) - 1) with (Z.of_nat (length i)) by lia.
    change (s :: i) with ([s] ++ i). eapply dec_bind; [apply dec_byte|].
    eapply dec_bind_nil; [apply dec_mem_into; lia|]. fold w.
    eapply dec_last; [apply dec_put_nul; lia|]. reflexivity.
  - rewrite !app_length, firstn_length, skipn_length. cbn [length]. lia.
  - rewrite Fw, firstn_app, Nat.sub_diag, firstn_all. cbn [firstn]. apply app_nil_r.
  - rewrite Fw, app_nth2, Nat.sub_diag by lia. reflexivity.
Qed.

Lemma dec_desc : forall ds d s, Z.of_nat (length s) < ds -> Z.of_nat (length (d_str d)) = ds ->
  exists str, dec true true (get_desc ds (Z.of_nat (length s)) d) s (mkPdesc str true (Z.of_nat (length s))) /\
    Z.of_nat (length str) = ds /\ firstn (length s) str = s /\ nth (length s) str 1 = 0.
Proof.
  intros ds d i L C.
  set (w := i ++ skipn (length i) (d_str d)).
  assert (Lw : Z.of_nat (length w) = ds) by (unfold w; rewrite app_length, skipn_length; lia).
  exists (firstn (length i) w ++ [0] ++ skipn (length i + 1) w).
  assert (Fw : firstn (length i) w = i) by (unfold w; rewrite firstn_app, Nat.sub_diag, firstn_all; cbn [firstn]; apply app_nil_r).
  split; [|split; [|split]].
  - unfold get_desc. destruct (Z.ltb_spec (ds - 1) (Z.of_nat (length i))); [lia|].
    eapply dec_bind_nil; [apply dec_mem_into; lia|]. fold w.
    eapply dec_last; [apply dec_put_nul; lia|]. reflexivity.
  - rewrite !app_length, firstn_length, skipn_length. cbn [length]. lia.
  - rewrite Fw, firstn_app, Nat.sub_diag, firstn_all. cbn [firstn]. apply app_nil_r.
  - rewrite Fw, app_nth2, Nat.sub_diag by lia. reflexivity.
Qed.

Lemma dec_mgmt : forall s a i n o, byte s -> (1 <= length a <= 31)%nat -> byte i -> u32r n -> (length o <= 255)%nat ->
  dec true true (get_mgmt (Z.of_nat (length (econtent (EManagement s a i n o))))) (econtent (EManagement s a i n o))
    (mkMgmt (a ++ skipn (length a) (zeros 31)) s (Z.of_nat (length a)) i n true).
Proof.
  intros s a i n o S A I N O. unfold get_mgmt. cbn [econtent].
  change (Z.of_nat (1 + length a) :: s :: a ++ i :: e32 true n ++ Z.of_nat (length o) :: o) with
    ([Z.of_nat (1 + length a)] ++ [s] ++ a ++ [i] ++ e32 true n ++ [Z.of_nat (length o)] ++ o).
  eapply dec_bind; [apply dec_byte|]. cbv zeta.
  destruct (Z.eqb_spec (Z.of_nat (1 + length a)) 0); [lia|].
  replace (Z.of_nat (1 + length a) - 1) with (Z.of_nat (length a)) by lia.
  destruct (Z.ltb_spec (Z.of_nat (length a)) 1); [lia|]. destruct (Z.ltb_spec 31 (Z.of_nat (length a))); [lia|]. cbn [orb].
  eapply dec_bind; [apply dec_byte|]. eapply dec_bind; [apply dec_mem_into; lia|]. eapply dec_bind; [apply dec_byte|].
  eapply dec_bind; [apply dec_u32; exact N|]. eapply dec_bind; [apply dec_byte|].
  eapply dec_last; [apply dec_advance; reflexivity|]. reflexivity.
Qed.

Lemma dec_org : forall o g s, org_ok o -> length g = 3%nat -> dec true true (get_org o) (g ++ [s]) (g, s).
Proof.
  intros o g s O G. unfold get_org. eapply dec_bind.
  - pose proof (dec_mem_into true 3 (fst o) g ltac:(lia)) as H. rewrite G in H.
    rewrite skipn_all2 in H by (unfold org_ok in O; lia). rewrite app_nil_r in H. exact H.
  - eapply dec_last; [apply dec_byte|]. reflexivity.
Qed.

Lemma bytes_eqb_spec : forall a b, bytes_eqb a b = true <-> a = b.
Proof.
  induction a as [|x a IH]; intros [|y b]; cbn; split; intros H; try congruence; try reflexivity.
  - apply andb_true_iff in H. destruct H as [H1 H2]. apply Z.eqb_eq in H1. apply IH in H2. congruence.
  - inversion H; subst. rewrite Z.eqb_refl. cbn. apply IH. reflexivity.
Qed.

Definition good (ds : Z) (p : peer) : Prop := peer_ok ds p /\ terminated ds p.

Lemma good_split : forall ds p, peer_ok ds p -> terminated ds p -> good ds p.
Proof. intros ds p A B. split; assumption. Qed.

Ltac conjs := unfold good, peer_ok, terminated; cbn [with_cid with_pid with_ttl with_desc with_mgmt with_delay with_status with_mac with_phy
  p_cid p_pid p_ttl p_desc p_mgmt p_delay p_status p_mac p_phy i_str d_str]; repeat match goal with |- _ /\ _ => split end; assumption.

Lemma one_elem : forall ds e o p, 1 <= ds -> ewf ds e -> org_ok o -> good ds p ->
  exists p' o', dec true true (one_tlv ds (etype e) (Z.of_nat (length (econtent e))) o p) (econtent e) (p', o') /\
    good ds p' /\ org_ok o' /\ view_of p' = learn (view_of p) e.
Proof.
  intros ds e o p D (W1 & W) O (P & T). pose proof P as (P1 & P2 & P3 & P4 & P5 & P6). destruct T as (T1 & T2 & T3).
  destruct e as [s i|s i|v|s|s a i n oid|a b c d f|s|m|a c m|g s c|t c]; cbn [etype econtent] in *; unfold one_tlv.
  - destruct W as [Ws Wl]. destruct (dec_id cid_size (p_cid p) s i Ws) as (str & E & L & F & N); [unfold cid_size; lia|exact P1|].
    exists (with_cid p (mkLid str s true (Z.of_nat (length i)))), o. split; [eapply dec_last; [exact E|reflexivity]|].
    split; [split; [conjs|]|].
    { split; [|split; assumption]. intros _. cbn [with_cid p_cid i_len i_str]. rewrite Nat2Z.id. split; [unfold cid_size; lia|exact N]. }
    split; [exact O|]. unfold view_of, learn, id_view. cbn. rewrite Nat2Z.id, F. reflexivity.
  - destruct W as [Ws Wl]. destruct (dec_id pid_size (p_pid p) s i Ws) as (str & E & L & F & N); [unfold pid_size; lia|exact P2|].
    exists (with_pid p (mkLid str s true (Z.of_nat (length i)))), o. split; [eapply dec_last; [exact E|reflexivity]|].
    split; [split; [conjs|]|].
    { split; [assumption|split; [|assumption]]. intros _. cbn [with_pid p_pid i_len i_str]. rewrite Nat2Z.id. split; [unfold pid_size; lia|exact N]. }
    split; [exact O|]. unfold view_of, learn, id_view. cbn. rewrite Nat2Z.id, F. reflexivity.
  - exists (with_ttl p v), o. rewrite e16_length. split; [eapply dec_last; [apply dec_u16; exact W|reflexivity]|].
    split; [split; conjs|]. split; [exact O|reflexivity].
  - destruct (dec_desc ds (p_desc p) s W P3) as (str & E & L & F & N).
    exists (with_desc p (mkPdesc str true (Z.of_nat (length s)))), o. split; [eapply dec_last; [exact E|reflexivity]|].
    split; [split; [conjs|]|].
    { split; [assumption|split; [assumption|]]. intros _. cbn [with_desc p_desc d_len d_str]. rewrite Nat2Z.id. split; [lia|exact N]. }
    split; [exact O|]. unfold view_of, learn. cbn. rewrite Nat2Z.id, F. reflexivity.
  - destruct W as (Ws & Wa & Wi & Wn & Lo).
    pose proof (dec_mgmt s a i n oid Ws Wa Wi Wn Lo) as E. cbn [econtent] in E.
    eexists _, o. split; [eapply dec_last; [exact E|reflexivity]|]. cbn [fst].
    unfold is_ipv4. cbn [g_valid g_sub g_len learn andb].
    replace (Z.of_nat (length a) =? 4) with (length a =? 4)%nat
      by (destruct (Nat.eqb_spec (length a) 4), (Z.eqb_spec (Z.of_nat (length a)) 4); try reflexivity; lia).
    destruct ((s =? 1) && (length a =? 4)%nat) eqn:Ei.
    + split; [split; [|conjs]|].
      { unfold peer_ok, with_mgmt. cbn [p_cid p_pid p_desc p_mgmt p_status p_mac g_val]. repeat (split; [assumption|]); split; [|split; assumption].
        rewrite app_length, skipn_length. change (length (zeros 31)) with 31%nat. lia. }
      split; [exact O|]. unfold view_of. cbn. rewrite Nat2Z.id, firstn_app, Nat.sub_diag, firstn_all. cbn [firstn]. rewrite app_nil_r. reflexivity.
    + split; [split; conjs|]. split; [exact O|reflexivity].
  - destruct W as (Wa & Wb & Wc & Wd & Wf). change (127 =? 1) with false. change (127 =? 2) with false. change (127 =? 3) with false.
    change (127 =? 4) with false. change (127 =? 8) with false. change (127 =? 127) with true. cbv iota.
    exists (with_delay p (mkDelay a b c d f true)), ([0; 14; 207], 1). split.
    { change [0; 14; 207; 1] with ([0; 14; 207] ++ [1]). eapply dec_bind; [apply dec_org; [exact O|reflexivity]|].
      cbn [fst snd]. change (bytes_eqb org_pnio [0; 14; 207]) with true. change (1 =? 1) with true. cbv iota.
      rewrite !app_length, !e32_length. change (Z.of_nat (length ([0; 14; 207] ++ [1]) + (4 + (4 + (4 + (4 + 4)))))) with 24.
      eapply dec_last; [|reflexivity]. unfold get_delay. change (24 =? 24) with true. cbn [negb].
      eapply dec_bind; [apply dec_u32; exact Wa|]. eapply dec_bind; [apply dec_u32; exact Wb|]. eapply dec_bind; [apply dec_u32; exact Wc|].
      eapply dec_bind; [apply dec_u32; exact Wd|]. eapply dec_last; [apply dec_u32; exact Wf|reflexivity]. }
    split; [split; conjs|]. split; reflexivity.
  - change (127 =? 1) with false. change (127 =? 2) with false. change (127 =? 3) with false.
    change (127 =? 4) with false. change (127 =? 8) with false. change (127 =? 127) with true. cbv iota.
    exists (with_status p s), ([0; 14; 207], 2). split.
    { change ([0; 14; 207; 2] ++ s) with (([0; 14; 207] ++ [2]) ++ s). eapply dec_bind; [apply dec_org; [exact O|reflexivity]|].
      cbn [fst snd]. change (bytes_eqb org_pnio [0; 14; 207]) with true. change (2 =? 1) with false. change (2 =? 2) with true. cbv iota.
      rewrite !app_length, W. change (Z.of_nat (length [0; 14; 207] + length [2] + 4)) with 8.
      eapply dec_last; [|reflexivity]. unfold get_status. change (8 =? 8) with true. cbn [negb].
      apply dec_mem; [rewrite W; reflexivity|congruence]. }
    split; [split; conjs|]. split; reflexivity.
  - change (127 =? 1) with false. change (127 =? 2) with false. change (127 =? 3) with false.
    change (127 =? 4) with false. change (127 =? 8) with false. change (127 =? 127) with true. cbv iota.
    exists (with_mac p m), ([0; 14; 207], 5). split.
    { change ([0; 14; 207; 5] ++ m) with (([0; 14; 207] ++ [5]) ++ m). eapply dec_bind; [apply dec_org; [exact O|reflexivity]|].
      cbn [fst snd]. change (bytes_eqb org_pnio [0; 14; 207]) with true. change (5 =? 1) with false. change (5 =? 2) with false. change (5 =? 5) with true. cbv iota.
      rewrite !app_length, W. change (Z.of_nat (length [0; 14; 207] + length [5] + 6)) with 10.
      eapply dec_last; [|reflexivity]. unfold get_mac. change (10 =? 10) with true. cbn [negb].
      apply dec_mem; [rewrite W; reflexivity|congruence]. }
    split; [split; conjs|]. split; reflexivity.
  - destruct W as (Wa & Wc & Wm). change (127 =? 1) with false. change (127 =? 2) with false. change (127 =? 3) with false.
    change (127 =? 4) with false. change (127 =? 8) with false. change (127 =? 127) with true. cbv iota.
    exists (with_phy p (mkLstat (Z.testbit a 0) (Z.testbit a 1) c m true)), ([0; 18; 15], 1). split.
    { change ([0; 18; 15; 1; a] ++ e16 true c ++ e16 true m) with (([0; 18; 15] ++ [1]) ++ [a] ++ e16 true c ++ e16 true m).
      eapply dec_bind; [apply dec_org; [exact O|reflexivity]|].
      cbn [fst snd]. change (bytes_eqb org_pnio [0; 18; 15]) with false. change (bytes_eqb org_ieee [0; 18; 15]) with true. change (1 =? 1) with true. cbv iota.
      rewrite !app_length, !e16_length. change (Z.of_nat (length [0; 18; 15] + length [1] + (length [a] + (2 + 2)))) with 9.
      eapply dec_last; [|reflexivity]. unfold get_phy. change (9 =? 9) with true. cbn [negb].
      eapply dec_bind; [apply dec_byte|]. eapply dec_bind; [apply dec_u16; exact Wc|]. eapply dec_last; [apply dec_u16; exact Wm|reflexivity]. }
    split; [split; conjs|]. split; reflexivity.
  - destruct W as (Wg & Ws & N1 & N2). change (127 =? 1) with false. change (127 =? 2) with false. change (127 =? 3) with false.
    change (127 =? 4) with false. change (127 =? 8) with false. change (127 =? 127) with true. cbv iota.
    exists p, (g, s). split.
    { assert (A : dec true true (rdo _ <- advance (Z.of_nat (length (g ++ s :: c)) - 4); rret (p, (g, s))) c (p, (g, s))).
      { eapply dec_last; [apply dec_advance; rewrite app_length; cbn [length]; lia|reflexivity]. }
      set (n := Z.of_nat (length (g ++ s :: c))) in *. clearbody n.
      assert (Hc : g ++ s :: c = (g ++ [s]) ++ c) by (rewrite <- app_assoc; reflexivity). rewrite Hc.
      eapply dec_bind; [apply dec_org; [exact O|exact Wg]|]. cbn [fst snd].
      destruct (bytes_eqb org_pnio g) eqn:E1.
      - apply bytes_eqb_spec in E1. unfold org_pnio in E1. symmetry in E1.
        destruct (Z.eqb_spec s 1); [exfalso; apply N1; auto|]. destruct (Z.eqb_spec s 2); [exfalso; apply N1; auto|].
        destruct (Z.eqb_spec s 5); [exfalso; apply N1; auto|]. exact A.
      - destruct (bytes_eqb org_ieee g) eqn:E2; [|exact A]. apply bytes_eqb_spec in E2. unfold org_ieee in E2. symmetry in E2.
        destruct (Z.eqb_spec s 1); [exfalso; apply N2; auto|]. exact A. }
    split; [split; conjs|]. split; [exact Wg|reflexivity].
  - destruct W as (Wt & Ni). exists p, o. split; [|split; [split; conjs|split; [exact O|reflexivity]]].
    destruct (Z.eqb_spec t 1); [exfalso; apply Ni; cbn; auto|]. destruct (Z.eqb_spec t 2); [exfalso; apply Ni; cbn; auto|].
    destruct (Z.eqb_spec t 3); [exfalso; apply Ni; cbn; auto|]. destruct (Z.eqb_spec t 4); [exfalso; apply Ni; cbn; auto|].
    destruct (Z.eqb_spec t 8); [exfalso; apply Ni; cbn; auto 6|]. destruct (Z.eqb_spec t 127); [lia|].
    eapply dec_last; [apply dec_advance; reflexivity|reflexivity].
Qed.

Lemma etype_range : forall ds e, ewf ds e -> 0 < etype e <= 127.
Proof. intros ds e (_ & W). destruct e; cbn [etype]; lia. Qed.

Lemma tlv_split : forall t n, 0 <= t <= 127 -> 0 <= n <= 511 ->
  Z.shiftr (Z.land (t * 512 + n) 65024) 9 = t /\ Z.land (t * 512 + n) 511 = n /\ 0 <= t * 512 + n < 65536.
Proof.
  intros t n T N. split; [|split; [|lia]].
  - rewrite Z.shiftr_land. change (Z.shiftr 65024 9) with (Z.ones 7). rewrite Z.shiftr_div_pow2 by lia. change (2 ^ 9) with 512.
    rewrite Z.div_add_l, (Z.div_small n) by lia. rewrite Z.add_0_r, Z.land_ones by lia. apply Z.mod_small. change (2 ^ 7) with 128. lia.
  - change 511 with (Z.ones 9). rewrite Z.land_ones by lia. change (2 ^ 9) with 512. rewrite Z.add_comm, Z.mod_add by lia. apply Z.mod_small. lia.
Qed.

Lemma dec_tlv : forall t n, 0 <= t <= 127 -> 0 <= n <= 511 -> dec true true get_tlv (e16 true (t * 512 + n)) (t, n).
Proof.
  intros t n T N pre post len L M K. destruct (tlv_split t n T N) as (A & B & C). unfold get_tlv.
  rewrite (dec_u16 true _ C pre post len L M K). cbn [obind r_res is_ok]. rewrite A, B. reflexivity.
Qed.

Lemma elems_dec : forall ds es k o p l, 1 <= ds -> Forall (ewf ds) es -> org_ok o -> good ds p -> (length es < k)%nat -> 0 <= l <= 511 ->
  exists p', dec true true (tlvs k ds o p) (concat (map eencode es) ++ e16 true l) p' /\ good ds p' /\
    view_of p' = fold_left learn es (view_of p).
Proof.
  intros ds es. induction es as [|e es IH]; intros k o p l D W O G K L.
  - destruct k as [|k]; [cbn in K; lia|]. exists p. split; [|split; [exact G|reflexivity]]. cbn [map concat app tlvs].
    eapply dec_bind_nil; [apply (dec_tlv 0 l); lia|]. cbn [fst snd]. change (0 =? 0) with true. cbv iota. apply dec_ret.
  - destruct k as [|k]; [cbn in K; lia|]. inversion W as [|? ? We Ws]; subst.
    destruct (one_elem ds e o p D We O G) as (p1 & o1 & E1 & G1 & O1 & V1).
    destruct (IH k o1 p1 l D Ws O1 G1 ltac:(cbn [length] in K; lia) L) as (p2 & E2 & G2 & V2).
    exists p2. split; [|split; [exact G2|cbn [fold_left]; rewrite V2, V1; reflexivity]].
    cbn [map concat tlvs]. unfold eencode at 1. rewrite <- !app_assoc.
    pose proof (etype_range ds e We). destruct We as [Wl _].
    eapply dec_bind; [apply dec_tlv; lia|]. cbn [fst snd]. destruct (Z.eqb_spec (etype e) 0); [lia|].
    eapply dec_bind; [exact E1|]. cbn [fst snd]. exact E2.
Qed.

Lemma eencode_len : forall es, (2 * length es <= length (concat (map eencode es)))%nat.
Proof.
  induction es as [|e es IH]; [apply Nat.le_refl|]. cbn [map concat length]. rewrite app_length. unfold eencode at 1.
  rewrite app_length, e16_length. lia.
Qed.

Lemma view_peer0 : forall ds, view_of (peer0 ds) = view0.
Proof. reflexivity. Qed.

Lemma peer0_good : forall ds, 1 <= ds -> good ds (peer0 ds).
Proof. intros ds D. split; [apply peer0_ok; lia|]. split; [|split]; intros H; discriminate H. Qed.

(** A frame of well formed elements, an end mark (type 0, any length field) and
    anything behind it: what is stored is what the elements say. *)
Theorem C100_learned : forall ds o es l rest, 1 <= ds -> length (fst o) = 3%nat -> Forall (ewf ds) es -> 0 <= l <= 511 ->
  let frame := concat (map eencode es) ++ e16 true l ++ rest in
  Z.of_nat (length frame) <= 65000 ->
  exists p, parse ds o frame (Z.of_nat (length frame)) = Ok (Some p) /\ view_of p = fold_left learn es view0 /\ terminated ds p.
Proof.
  intros ds o es l rest D O W L frame N. unfold parse.
  destruct (elems_dec ds es (S (Z.to_nat (Z.of_nat (length frame)))) o (peer0 ds) l D W O (peer0_good ds D)) as (p & E & (G1 & G2) & V); [|exact L|].
  { unfold frame. rewrite app_length. pose proof (eencode_len es). lia. }
  exists p. specialize (E [] rest (Z.of_nat (length frame))). cbn [app length Nat.add] in E. rewrite <- app_assoc in E. fold frame in E.
  change (Z.of_nat 0) with 0 in E. rewrite E; [|unfold frame; rewrite !app_length; lia|lia|lia].
  cbn [obind r_res is_ok]. split; [reflexivity|]. split; [rewrite V, view_peer0; reflexivity|exact G2].
Qed.
Print Assumptions C100_learned.

(** Without an end mark the frame is refused. *)
Theorem C100_no_end : forall ds o es, 1 <= ds -> length (fst o) = 3%nat -> Forall (ewf ds) es ->
  let frame := concat (map eencode es) in
  Z.of_nat (length frame) <= 65000 -> parse ds o frame (Z.of_nat (length frame)) = Ok None.
Proof.
  intros ds o es D O W frame N. unfold parse.
  assert (H : forall es k o p pre, Forall (ewf ds) es -> org_ok o -> good ds p -> (length es < k)%nat ->
    Z.of_nat (length (pre ++ concat (map eencode es))) <= 65000 ->
    exists p' r', tlvs k ds o p (mkRd (Some (pre ++ concat (map eencode es))) (Z.of_nat (length (pre ++ concat (map eencode es)))) true POk (Z.of_nat (length pre)))
      = Ok (p', r') /\ r_res r' <> POk).
  { clear - D. induction es as [|e es IH]; intros k o p pre W O G K L.
    - destruct k as [|k]; [cbn in K; lia|]. cbn [map concat] in *. rewrite app_nil_r in *. cbn [tlvs]. unfold rbind, get_tlv, get_u16, rbind, get_byte.
      cbn [r_res is_ok negb r_len r_pos]. destruct (Z.leb_spec (Z.of_nat (length pre)) (Z.of_nat (length pre))); [|lia].
      cbn. eexists _, _. split; [reflexivity|]. discriminate.
    - destruct k as [|k]; [cbn in K; lia|]. inversion W as [|? ? We Ws]; subst.
      destruct (one_elem ds e o p D We O G) as (p1 & o1 & E1 & G1 & O1 & V1).
      pose proof (etype_range ds e We) as Et. pose proof We as [Wl _].
      cbn [map concat] in *.
      assert (He : eencode e = e16 true (etype e * 512 + Z.of_nat (length (econtent e))) ++ econtent e) by reflexivity.
      rewrite He in L |- *. rewrite <- !app_assoc in L |- *. clear He.
      set (c := econtent e) in *. set (h := e16 true (etype e * 512 + Z.of_nat (length c))). set (t := concat (map eencode es)).
      assert (Lh : length h = 2%nat) by apply e16_length.
      assert (Ln : Z.of_nat (length (pre ++ h ++ c ++ t)) <= 65000).
      { exact L. }
      cbn [tlvs]. unfold rbind.
      rewrite (dec_tlv (etype e) (Z.of_nat (length c)) ltac:(lia) ltac:(lia) pre (c ++ t)); fold h; [|rewrite !app_length; lia|apply Z.le_refl|lia].
      cbn [obind fst snd]. destruct (Z.eqb_spec (etype e) 0); [lia|].
      pose proof (E1 (pre ++ h) t (Z.of_nat (length (pre ++ h ++ c ++ t)))) as E2. fold c in E2.
      rewrite <- !app_assoc in E2. rewrite app_length in E2. rewrite E2; [|rewrite !app_length; lia|lia|lia].
      cbn [obind fst snd].
      destruct (IH k o1 p1 (pre ++ h ++ c) Ws O1 G1) as (p2 & r2 & E3 & R2); [cbn [length] in K; lia| |].
      { fold t. rewrite <- !app_assoc. exact Ln. }
      fold t in E3. rewrite <- !app_assoc in E3. exists p2, r2. split; [|exact R2].
      rewrite <- E3. do 3 f_equal. rewrite !app_length. lia. }
  destruct (H es (S (Z.to_nat (Z.of_nat (length frame)))) o (peer0 ds) [] W O (peer0_good ds D)) as (p & r & E & R).
  { pose proof (eencode_len es). fold frame in H0. lia. }
  { exact N. }
  cbn [app length] in E. fold frame in E. change (Z.of_nat 0) with 0 in E. rewrite E. cbn [obind].
  destruct (is_ok (r_res r)) eqn:X; [apply is_ok_true in X; contradiction|reflexivity].
Qed.
Print Assumptions C100_no_end.

(** ** Cases *)

(** "dut" and "port-001", an element of unknown type, the link state, the end mark
    and two bytes of padding. *)
Definition ex_elems : list elem :=
  [EChassis 7 [100; 117; 116]; EPort 7 [112; 111; 114; 116; 45; 48; 48; 49]; EOther 5 [1; 2; 3]; ETtl 20; EChassis 7 [97];
   EManagement 1 [192; 168; 0; 50] 2 1 [9; 9]; EOrgOther [0; 14; 207] 3 [7]; ELink 3 32769 16].
Example C100_example :
  Forall (ewf 60) ex_elems /\
  exists p, parse 60 ([7; 7; 7], 7) (concat (map eencode ex_elems) ++ e16 true 0 ++ [1; 2])
      (Z.of_nat (length (concat (map eencode ex_elems) ++ e16 true 0 ++ [1; 2]))) = Ok (Some p) /\
    view_of p = mkView (Some (7, [97])) (Some (7, [112; 111; 114; 116; 45; 48; 48; 49])) 20 None
      (Some ([192; 168; 0; 50], 2, 1)) None [0; 0; 0; 0] [0; 0; 0; 0; 0; 0] (Some (true, true, 32769, 16)).
Proof.
  assert (W : Forall (ewf 60) ex_elems).
  { unfold ex_elems. repeat constructor; try (cbn; lia); try (unfold byte, u32r; lia);
      try (intros [H1 H2]; revert H1 H2; try discriminate; lia); cbn; try lia. }
  split; [exact W|].
  destruct (C100_learned 60 ([7; 7; 7], 7) ex_elems 0 [1; 2] ltac:(lia) eq_refl W ltac:(lia)) as (p & E & V & _); [vm_compute; discriminate|].
  exists p. split; [exact E|exact V].
Qed.

(** The length of the object identifier inside a management address is not checked
    against the length of the element: the elements behind it are lost.  Here an
    element of 12 bytes says that its identifier has 6 bytes; the port id behind it
    is not seen, although the lengths of all elements are right. *)
Definition ex_desync : list Z :=
  e16 true (8 * 512 + 12) ++ [5; 1; 192; 168; 0; 50; 2; 0; 0; 0; 1; 6] ++
  eencode (EPort 7 [97; 98; 99]) ++ e16 true 0.
Theorem C100_management_refuted :
  exists p, parse 60 ([0; 0; 0], 0) ex_desync (Z.of_nat (length ex_desync)) = Ok (Some p) /\ id_view (p_pid p) = None.
Proof. eexists. split; vm_compute; reflexivity. Qed.
Print Assumptions C100_management_refuted.

(** A second chassis id which is too long sets the length, while the first one
    stays valid: the reported length is larger than the array. *)
Definition ex_long : list Z :=
  eencode (EChassis 7 [97]) ++ e16 true (1 * 512 + 300) ++ repeat 98 300 ++ e16 true 0.
Theorem C100_too_long_refuted :
  exists p, parse 60 ([0; 0; 0], 0) ex_long (Z.of_nat (length ex_long)) = Ok (Some p) /\
    i_valid (p_cid p) = true /\ i_len (p_cid p) = 299 /\ length (i_str (p_cid p)) = 241%nat.
Proof. eexists. split; [vm_compute; reflexivity|]. split; [reflexivity|]. split; reflexivity. Qed.
Print Assumptions C100_too_long_refuted.

(** * C101: the own frame *)

(** Specification: what a device says about itself. *)
Definition said_chassis (d : me) : Z * list Z :=
  if m_legacy d then match m_station d with [] => (4, m_mac d) | s => (7, s) end else (7, m_descr d).
Definition said_port (d : me) : Z * list Z :=
  if m_legacy d then (7, m_port d)
  else (7, m_port d ++ [46] ++ match m_station d with [] => mac_string (m_mac d) | s => s end).
Definition said (d : me) : view :=
  mkView (Some (said_chassis d)) (Some (said_port d)) 20 None (Some (e32 true (m_ip d), 2, m_ifindex d)) None
    [0; 0; 0; 0] (m_mac d) (Some (m_sup d, m_ena d, m_cap d, m_mau d)).

(** Values of a configured device; port names are "port-001" and so on. *)
Definition me_ok (d : me) : Prop :=
  (length (m_station d) <= 240)%nat /\ (length (m_port d) <= 13)%nat /\ (length (m_descr d) <= 240)%nat /\
  length (m_mac d) = 6%nat /\ length (m_portmac d) = 6%nat /\ u32r (m_ip d) /\ u32r (m_ifindex d) /\
  0 <= m_cap d < 65536 /\ 0 <= m_mau d < 65536.

Definition my_elems (d : me) : list elem :=
  [EChassis (fst (said_chassis d)) (snd (said_chassis d)); EPort (fst (said_port d)) (snd (said_port d)); ETtl 20;
   EPortStatus [0; 0; 0; 0]; EChassisMac (m_mac d);
   ELink ((if m_sup d then 1 else 0) + (if m_ena d then 2 else 0)) (m_cap d) (m_mau d);
   EManagement 1 (e32 true (m_ip d)) 2 (m_ifindex d) []].

Lemma mac_string_len : forall m, length m = 6%nat -> length (mac_string m) = 17%nat.
Proof. intros m H. do 7 (destruct m as [|? m]; try discriminate H). reflexivity. Qed.

Lemma my_chassis_said : forall d, me_ok d -> my_chassis d = said_chassis d.
Proof.
  intros d (S & _). unfold my_chassis, said_chassis, cid_size. destruct (m_legacy d); [|reflexivity]. cbv zeta.
  destruct (m_station d) as [|x l] eqn:E; [reflexivity|].
  destruct (Z.eqb_spec (Z.of_nat (length (x :: l))) 0); [cbn [length] in *; lia|].
  destruct (Z.leb_spec 241 (Z.of_nat (length (x :: l)))); [lia|]. reflexivity.
Qed.

Lemma my_port_said : forall d, me_ok d -> my_port d = said_port d.
Proof.
  intros d (S & P & _ & M & _). unfold my_port, said_port, snprintf, pid_size. destruct (m_legacy d).
  - rewrite firstn_all2 by lia. reflexivity.
  - cbv zeta. destruct (m_station d) as [|x l] eqn:E.
    + rewrite (firstn_all2 (mac_string (m_mac d))) by (rewrite mac_string_len by exact M; lia).
      rewrite firstn_all2; [reflexivity|]. rewrite !app_length, mac_string_len by exact M. cbn [length]. lia.
    + rewrite firstn_all2; [reflexivity|]. rewrite !app_length. cbn [length] in *. lia.
Qed.

Lemma said_chassis_len : forall d, me_ok d -> (length (snd (said_chassis d)) <= 240)%nat /\ byte (fst (said_chassis d)).
Proof.
  intros d (S & _ & D & M & _). unfold said_chassis. destruct (m_legacy d); [destruct (m_station d)|]; cbn [fst snd]; unfold byte; lia.
Qed.
Lemma said_port_len : forall d, me_ok d -> (length (snd (said_port d)) <= 254)%nat /\ byte (fst (said_port d)).
Proof.
  intros d (S & P & _ & M & _). unfold said_port. destruct (m_legacy d); cbn [fst snd]; [unfold byte; lia|].
  rewrite !app_length. destruct (m_station d); [rewrite mac_string_len by exact M|]; cbn [length] in *; unfold byte; lia.
Qed.

Lemma my_elems_wf : forall ds d, 1 <= ds -> me_ok d -> Forall (ewf ds) (my_elems d).
Proof.
  intros ds d D M. destruct (said_chassis_len d M). destruct (said_port_len d M).
  destruct M as (M1 & M2 & M3 & M4 & M5 & M6 & M7 & M8 & M9). unfold my_elems.
  assert (byte ((if m_sup d then 1 else 0) + (if m_ena d then 2 else 0))) by (unfold byte; destruct (m_sup d), (m_ena d); lia).
  repeat (apply Forall_cons; [|]); [..|apply Forall_nil]; unfold ewf; cbn [econtent]; rewrite ?e16_length, ?e32_length.
  - cbn [length]. split; [lia|split; [assumption|lia]].
  - cbn [length]. split; [lia|split; [assumption|lia]].
  - lia.
  - split; [vm_compute; lia|reflexivity].
  - rewrite app_length. cbn [length]. lia.
  - rewrite !app_length, !e16_length. cbn [length]. split; [lia|split; [assumption|split; assumption]].
  - cbn [length]. rewrite app_length. cbn [length]. rewrite app_length, !e32_length. cbn [length].
    unfold byte, u32r in *. repeat split; lia.
Qed.

Lemma my_elems_view : forall d, me_ok d -> fold_left learn (my_elems d) view0 = said d.
Proof.
  intros d M. unfold my_elems, said, view0.
  assert (L : forall e l v, fold_left learn (e :: l) v = fold_left learn l (learn v e)) by reflexivity.
  do 6 (rewrite L; cbn [learn v_chassis v_port v_ttl v_desc v_mgmt v_delay v_status v_mac v_link]).
  rewrite L. cbn [learn]. rewrite e32_length. change (1 =? 1) with true. cbn [andb Nat.eqb fold_left].
  cbn [v_chassis v_port v_ttl v_desc v_mgmt v_delay v_status v_mac v_link].
  destruct (said_chassis d), (said_port d). cbn [fst snd]. destruct (m_sup d), (m_ena d); reflexivity.
Qed.

Lemma enc_head : forall t n, 0 <= t <= 127 -> 0 <= n < 256 -> enc (add_head t n) (e16 true (t * 512 + n)).
Proof.
  intros t n T N. unfold add_head. rewrite u8_id by lia. change 511 with (Z.ones 9). rewrite Z.land_ones by lia.
  rewrite Z.mod_small by (change (2 ^ 9) with 512; lia). rewrite Z.shiftl_mul_pow2 by lia. change (2 ^ 9) with 512.
  rewrite u16_id by lia. apply enc_u16. lia.
Qed.

Lemma enc_id : forall t s i, 0 <= t <= 127 -> byte s -> (length i <= 254)%nat ->
  enc (add_id t (s, i)) (e16 true (t * 512 + Z.of_nat (length (s :: i))) ++ s :: i).
Proof.
  intros t s i T B L. unfold add_id. cbn [fst snd length]. replace (1 + Z.of_nat (length i)) with (Z.of_nat (S (length i))) by lia.
  apply enc_seq; [apply enc_head; lia|]. change (s :: i) with ([s] ++ i). apply enc_seq; [apply enc_byte; exact B|apply enc_mem].
Qed.

Lemma enc_pnio : forall n, 0 <= n < 250 -> enc (add_pnio n) (e16 true (127 * 512 + (n + 3)) ++ [0; 14; 207]).
Proof.
  intros n N. unfold add_pnio. rewrite u8_id by lia. apply enc_seq; [apply enc_head; lia|].
  change [0; 14; 207] with ([0] ++ [14] ++ [207]).
  apply enc_seq; [apply enc_byte; unfold byte; lia|]. apply enc_seq; apply enc_byte; unfold byte; lia.
Qed.
Lemma enc_ieee : forall n, 0 <= n < 250 -> enc (add_ieee n) (e16 true (127 * 512 + (n + 3)) ++ [0; 18; 15]).
Proof.
  intros n N. unfold add_ieee. rewrite u8_id by lia. apply enc_seq; [apply enc_head; lia|].
  change [0; 18; 15] with ([0] ++ [18] ++ [15]).
  apply enc_seq; [apply enc_byte; unfold byte; lia|]. apply enc_seq; apply enc_byte; unfold byte; lia.
Qed.

Lemma enc_eq : forall f x y, enc f x -> x = y -> enc f y.
Proof. intros f x y H E. rewrite <- E. exact H. Qed.

Definition eth_header (d : me) : list Z := [1; 128; 194; 0; 0; 14] ++ m_portmac d ++ [136; 204].

Lemma enc_construct : forall d, me_ok d ->
  enc (construct d) (eth_header d ++ concat (map eencode (my_elems d)) ++ e16 true 0).
Proof.
  intros d M. destruct (said_chassis_len d M) as [C1 C2]. destruct (said_port_len d M) as [P1 P2].
  unfold construct. rewrite my_chassis_said, my_port_said by exact M.
  destruct M as (M1 & M2 & M3 & M4 & M5 & M6 & M7 & M8 & M9).
  unfold eth_header. rewrite <- !app_assoc. cbn [my_elems map concat]. rewrite <- !app_assoc. cbn [app concat].
  destruct (said_chassis d) as [cs ci]. destruct (said_port d) as [ps pi]. cbn [fst snd] in *.
  apply (enc_seq _ _ [1; 128; 194; 0; 0; 14]); [apply enc_mem|].
  apply enc_seq; [apply enc_mem|].
  apply (enc_seq _ _ [136; 204]); [apply (enc_eq _ (e16 true 35020)); [apply enc_u16; lia|reflexivity]|].
  apply enc_seq; [apply (enc_id 1); [lia|exact C2|lia]|].
  apply enc_seq; [apply (enc_id 2); [lia|exact P2|lia]|].
  apply enc_seq; [unfold add_ttl; apply (enc_seq _ _ (e16 true (3 * 512 + 2)) (e16 true 20)); [apply enc_head; lia|apply enc_u16; lia]|].
  apply enc_seq.
  { unfold add_status. eapply enc_eq.
    - apply enc_seq; [apply enc_pnio; lia|]. apply enc_seq; [apply enc_byte; unfold byte; lia|]. apply enc_seq; apply enc_u16; lia.
    - reflexivity. }
  apply enc_seq.
  { unfold add_mac. eapply enc_eq.
    - apply enc_seq; [apply enc_pnio; lia|]. apply enc_seq; [apply enc_byte; unfold byte; lia|]. apply enc_mem.
    - unfold eencode. cbn [etype econtent]. rewrite app_length, M4. reflexivity. }
  apply enc_seq.
  { unfold add_phy. eapply enc_eq.
    - apply enc_seq; [apply enc_ieee; lia|]. apply enc_seq; [apply enc_byte; unfold byte; lia|].
      apply enc_seq; [apply enc_byte; unfold byte; destruct (m_sup d), (m_ena d); lia|]. apply enc_seq; apply enc_u16; assumption.
    - unfold eencode. cbn [etype econtent]. rewrite !app_length, !e16_length. reflexivity. }
  apply enc_seq; [|apply (enc_head 0 0); lia].
  { unfold add_mgmt. eapply enc_eq.
    - apply enc_seq; [apply enc_head; lia|]. apply enc_seq; [apply enc_byte; unfold byte; lia|]. apply enc_seq; [apply enc_byte; unfold byte; lia|].
      apply enc_seq; [apply enc_u32; exact M6|]. apply enc_seq; [apply enc_byte; unfold byte; lia|]. apply enc_seq; [apply enc_u32; exact M7|].
      apply enc_byte; unfold byte; lia.
    - reflexivity. }
Qed.

Lemma my_elems_len : forall d, me_ok d -> (length (concat (map eencode (my_elems d))) <= 600)%nat.
Proof.
  intros d M. destruct (said_chassis_len d M) as [C1 C2]. destruct (said_port_len d M) as [P1 P2].
  destruct M as (M1 & M2 & M3 & M4 & M5 & M6 & M7 & M8 & M9).
  cbn [my_elems map concat]. unfold eencode. cbn [econtent]. rewrite !app_length, !e16_length. cbn [length].
  rewrite !app_length. cbn [length]. rewrite !app_length, ?e32_length, M4. cbn [length]. lia.
Qed.

(** The frame fits into its buffer, is addressed to the LLDP multicast address, and
    another device learns from it exactly what this device says about itself. *)
Theorem C101_round_trip : forall d ds o buf, me_ok d -> 1 <= ds -> length (fst o) = 3%nat ->
  frame_size <= Z.of_nat (length buf) ->
  exists buf' n, construct d (mkWr (Some buf) frame_size 0) = Ok (mkWr (Some buf') frame_size n) /\ 14 <= n <= frame_size /\
    firstn 14 buf' = eth_header d /\
    exists p, parse ds o (skipn 14 (firstn (Z.to_nat n) buf')) (n - 14) = Ok (Some p) /\ view_of p = said d /\ terminated ds p.
Proof.
  intros d ds o buf M D O B. pose proof (my_elems_len d M) as L. pose proof (enc_construct d M) as E.
  set (es := concat (map eencode (my_elems d))) in *. set (bs := eth_header d ++ es ++ e16 true 0) in *.
  assert (Lh : length (eth_header d) = 14%nat).
  { destruct M as (_ & _ & _ & _ & M5 & _). unfold eth_header. rewrite !app_length, M5. reflexivity. }
  assert (Lb : length bs = (16 + length es)%nat) by (unfold bs; rewrite !app_length, Lh, e16_length; lia).
  exists (put_at buf 0 bs), (Z.of_nat (length bs)). unfold frame_size in *.
  split. { rewrite E by lia. change (Z.to_nat 0) with 0%nat. do 2 f_equal. }
  split; [lia|].
  assert (F : firstn (length bs) (put_at buf 0 bs) = bs).
  { unfold put_at. cbn [firstn app]. rewrite firstn_app, Nat.sub_diag, firstn_all. cbn [firstn]. apply app_nil_r. }
  split.
  { replace (firstn 14 (put_at buf 0 bs)) with (firstn 14 (firstn (length bs) (put_at buf 0 bs))) by (rewrite firstn_firstn; f_equal; lia).
    rewrite F. unfold bs. rewrite firstn_app, Lh, Nat.sub_diag. change (firstn 0 (es ++ e16 true 0)) with (@nil Z).
    rewrite app_nil_r. apply firstn_all2. lia. }
  rewrite Nat2Z.id, F.
  assert (Sk : skipn 14 bs = es ++ e16 true 0).
  { unfold bs. rewrite skipn_app, Lh, Nat.sub_diag, skipn_all2 by lia. reflexivity. }
  rewrite Sk. destruct (C100_learned ds o (my_elems d) 0 [] D O (my_elems_wf ds d D M) ltac:(lia)) as (p & E1 & V & T).
  { fold es. rewrite !app_length, e16_length. cbn [length]. lia. }
  fold es in E1. rewrite app_nil_r in E1. exists p.
  replace (Z.of_nat (length bs) - 14) with (Z.of_nat (length (es ++ e16 true 0))) by (rewrite app_length, e16_length; lia).
  split; [exact E1|]. split; [rewrite V; apply my_elems_view; exact M|exact T].
Qed.
Print Assumptions C101_round_trip.

Example C101_example : me_ok (mkMe false [100; 117; 116] [112; 111; 114; 116; 45; 48; 48; 49] [80; 32; 49] [2; 0; 0; 0; 0; 1] [2; 0; 0; 0; 0; 2]
  3232235570 2 true true 32769 16).
Proof. unfold me_ok, u32r. cbn. lia. Qed.
