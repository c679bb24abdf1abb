(** Which connect requests are taken apart, and into what. *)
From Coq Require Import List ZArith Arith Bool Lia.
From Verif Require Import Base CpmModel CpmProps PpmModel PpmProps BlockModel BlockReadLemmas AlarmParse ConnReqModel.
From Verif Require BlockWriteProps.
Import ListNotations.
Local Open Scope Z_scope.

(** * Specification *)

(** At [i] stands a block of type [ty] and version 1.0 whose header tells [len] bytes after its length. *)
Definition header (b : list Z) (i ty len : Z) : Prop :=
  at16 b i = ty /\ at16 b (i + 2) = len /\ at8 b (i + 4) = 1 /\ at8 b (i + 5) = 0 /\ i + 6 <= Z.of_nat (length b) /\ i + 4 + len <= Z.of_nat (length b).

(** The contents of the block at [i] of [n] bytes are read by [m] as [a], to their end. *)
Definition holds {A} (b : list Z) (m : reader A) (i n : Z) (a : A) : Prop := m (rdr b (i + 6)) = Ok (a, rdr b (i + n)).

(** Device access only, according to the properties of the AR. *)
Definition only_access (a : arparam) : Prop := Z.testbit (ar_props a) 8 = true.

(** A request from [i] on, in words of its grammar: IOCR, alarm CR, expected submodule and RPC server blocks in any
    order.  [more b c cr a (crs, exp, alarms, rpcs) i x]: with what was told before, all of it tells [x]. *)
Definition told : Type := list iocrp * list expapi * list alarmp * list Z.
Inductive more (b : list Z) (c : caps) (cr : nat) (a : arparam) : told -> Z -> told -> Prop :=
| M_end : forall x, more b c cr a x (Z.of_nat (length b)) x
| M_iocr : forall crs ex al rp i n p x, header b i 258 (n - 4) -> holds b (get_iocr_param (c_api c) (c_slots c * c_subslots c) (repeat 0 6)) i n (true, p) ->
    ~ only_access a -> (length crs < cr)%nat -> more b c cr a (crs ++ [p], ex, al, rp) (i + n) x -> more b c cr a (crs, ex, al, rp) i x
| M_expected : forall crs ex al rp i n ex' x, header b i 260 (n - 4) -> holds b (get_exp_api_module c ex) i n ex' ->
    ~ only_access a -> more b c cr a (crs, ex', al, rp) (i + n) x -> more b c cr a (crs, ex, al, rp) i x
| M_alarm : forall crs ex al rp i n l x, header b i 259 (n - 4) -> holds b get_alarm_cr_request i n l ->
    ~ only_access a -> more b c cr a (crs, ex, al ++ [l], rp) (i + n) x -> more b c cr a (crs, ex, al, rp) i x
| M_rpc : forall crs ex al rp i n p x, header b i 263 (n - 4) -> holds b get_u16 i n p ->
    ~ only_access a -> more b c cr a (crs, ex, al, rp ++ [p]) (i + n) x -> more b c cr a (crs, ex, al, rp) i x.

(** A whole request: an AR block comes first or not at all.  Its header tells 54 bytes and the name. *)
Inductive request (b : list Z) (c : caps) (cr : nat) (i : Z) : asked -> Prop :=
| R_ar : forall a n crs ex al rp, header b i 257 (54 + strlen (ar_name a)) -> holds b (get_ar_param (repeat 0 8) (repeat 0 8) (repeat 0 6) (repeat 0 241)) i n a ->
    more b c cr a ([], [], [], []) (i + n) (crs, ex, al, rp) -> request b c cr i (mkAsked a 1 crs ex al rp)
| R_none : forall crs ex al rp, more b c cr (s_ar fresh) ([], [], [], []) i (crs, ex, al, rp) -> request b c cr i (mkAsked (s_ar fresh) 0 crs ex al rp).

(** * What readers leave alone *)

Definition steady {A} (m : reader A) : Prop := forall r a r', m r = Ok (a, r') ->
  r_buf r' = r_buf r /\ r_len r' = r_len r /\ r_be r' = r_be r /\ (r_res r <> POk -> r_res r' <> POk) /\
  (0 <= r_pos r -> r_len r < 65536 -> r_pos r <= r_pos r' <= Z.max (r_pos r) (r_len r)).

Lemma steady_refl : forall A (m : reader A), (forall r a r', m r = Ok (a, r') -> r' = r) -> steady m.
Proof. intros A m H r a r' E. rewrite (H _ _ _ E). repeat split; auto; lia. Qed.

Lemma steady_ret : forall A (a : A), steady (rret a).
Proof. intros A a. apply steady_refl. unfold rret. intros r x r' [= <- <-]. reflexivity. Qed.

Lemma steady_bind : forall A B (m : reader A) (k : A -> reader B), steady m -> (forall a, steady (k a)) -> steady (rbind m k).
Proof.
  intros A B m k M K r y r' E. unfold rbind in E. destruct (m r) as [[a r1]| |] eqn:E1; cbn [obind] in E; try discriminate.
  destruct (M _ _ _ E1) as (A1 & A2 & A3 & A4 & A5). destruct (K a _ _ _ E) as (B1 & B2 & B3 & B4 & B5).
  refine (conj _ (conj _ (conj _ (conj _ _)))); try congruence; auto. intros P L. specialize (A5 P L). specialize (B5 ltac:(lia) ltac:(lia)). lia.
Qed.

Lemma steady_byte : steady get_byte.
Proof.
  intros r a r' E. unfold get_byte in E. destruct (r_res r) eqn:R; cbn [is_ok negb] in E; try (injection E as <- <-; rewrite ?R; repeat split; auto; lia).
  destruct (Z.leb_spec (r_len r) (r_pos r)) as [L|L]; [injection E as <- <-; cbn; repeat split; auto; try congruence; lia|].
  destruct (r_buf r) as [b|] eqn:B; [|injection E as <- <-; cbn; repeat split; auto; try congruence; lia].
  destruct (byte_at b (r_pos r)) as [v| |]; cbn [obind] in E; try discriminate. injection E as <- <-. cbn.
  refine (conj B (conj eq_refl (conj eq_refl (conj _ _)))); [congruence|]. intros P L2. rewrite u16_id by lia. lia.
Qed.

Lemma steady_mem : forall n, 0 <= n -> steady (get_mem n).
Proof.
  intros n N r a r' E. unfold get_mem in E. destruct (r_res r) eqn:R; cbn [is_ok negb] in E; try (injection E as <- <-; rewrite ?R; repeat split; auto; lia).
  destruct (Z.ltb_spec (r_len r) (r_pos r + n)) as [L|L]; [injection E as <- <-; cbn; repeat split; auto; try congruence; lia|].
  destruct (r_buf r) as [b|] eqn:B; [|injection E as <- <-; cbn; repeat split; auto; try congruence; lia].
  destruct (slice b (r_pos r) n) as [v| |]; cbn [obind] in E; try discriminate. injection E as <- <-. cbn.
  refine (conj B (conj eq_refl (conj eq_refl (conj _ _)))); [congruence|]. intros P L2. rewrite u16_id by lia. lia.
Qed.

Lemma steady_mem_into : forall cap old n, 0 <= n -> steady (get_mem_into cap old n).
Proof.
  intros cap old n N r a r' E. unfold get_mem_into in E. destruct (get_mem n r) as [[o r1]| |] eqn:M; cbn [obind] in E; try discriminate.
  pose proof (steady_mem n N _ _ _ M) as S. destruct o; [destruct (cap <? n); [discriminate|]|]; injection E as <- <-; exact S.
Qed.

Lemma steady_at : forall A (m : rd -> reader A), (forall r0, steady (m r0)) -> steady (fun r => m r r).
Proof. intros A m H r a r' E. exact (H r _ _ _ E). Qed.

Lemma steady_u16 : steady get_u16.
Proof.
  intros r a r' E. unfold get_u16 in E. destruct (is_ok (r_res r)); cbn [negb] in E.
  - revert E. apply (steady_at _ (fun r0 => rdo a <- get_byte; rdo b <- get_byte; rret (u16 (if r_be r0 then Z.shiftl a 8 + b else a + Z.shiftl b 8)))).
    intros r0. repeat (apply steady_bind; [apply steady_byte|intros ?]). apply steady_ret.
  - injection E as <- <-. repeat split; auto; lia.
Qed.
Lemma steady_u32 : steady get_u32.
Proof.
  apply (steady_at _ (fun r0 => rdo a <- get_byte; rdo b <- get_byte; rdo c <- get_byte; rdo d <- get_byte;
   rret (u32 (if r_be r0 then Z.shiftl a 24 + Z.shiftl b 16 + Z.shiftl c 8 + d else a + Z.shiftl b 8 + Z.shiftl c 16 + Z.shiftl d 24)))).
  intros r0. repeat (apply steady_bind; [apply steady_byte|intros ?]). apply steady_ret.
Qed.

(** What get_u16 reads is not negative. *)
Lemma steady_bind_u16 : forall B (k : Z -> reader B), (forall a, 0 <= a -> steady (k a)) -> steady (rbind get_u16 k).
Proof.
  intros B k K r y r' E. unfold rbind in E. destruct (get_u16 r) as [[a r1]| |] eqn:E1; cbn [obind] in E; try discriminate.
  assert (0 <= a).
  { unfold get_u16 in E1. destruct (is_ok (r_res r)); cbn [negb] in E1; [|injection E1 as <- <-; lia]. unfold rbind in E1.
    destruct (get_byte r) as [[x r2]| |]; cbn [obind] in E1; try discriminate. destruct (get_byte r2) as [[z r3]| |]; cbn [obind] in E1; try discriminate.
    unfold rret in E1. injection E1 as <- _. apply Z.mod_pos_bound. lia. }
  revert E. assert (X : rbind get_u16 (fun _ => k a) r = k a r1) by (unfold rbind; rewrite E1; reflexivity). rewrite <- X.
  apply steady_bind; [apply steady_u16|auto].
Qed.

Lemma steady_fill : forall A cap n ix (m : reader A), steady m -> steady (fill cap ix n m).
Proof.
  intros A cap n. induction n as [|n IH]; intros ix m M; cbn [fill]; [apply steady_ret|].
  intros r a r' E. destruct (cap <=? ix)%nat; [discriminate|]. revert E. apply steady_bind; [exact M|intros x]. apply steady_bind; [apply IH; exact M|intros l; apply steady_ret].
Qed.

Ltac st := repeat first [apply steady_ret | apply steady_bind; [first [apply steady_u16|apply steady_u32|apply steady_byte|apply steady_mem_into; lia]|intros ?]].

Lemma steady_uuid : forall o, steady (get_uuid o).
Proof. intros o. unfold get_uuid. st. Qed.
Lemma steady_fd : steady get_frame_descriptor.
Proof. unfold get_frame_descriptor. st. Qed.
Lemma steady_entry : forall cap, steady (get_iocr_api_entry cap).
Proof.
  intros cap. unfold get_iocr_api_entry. apply steady_bind; [apply steady_u32|intros api]. apply steady_bind; [apply steady_u16|intros n].
  destruct (Z.of_nat cap <? n); [apply steady_ret|]. apply steady_bind; [apply steady_fill, steady_fd|intros d]. apply steady_bind; [apply steady_u16|intros k].
  destruct (Z.of_nat cap <? k); [apply steady_ret|]. apply steady_bind; [apply steady_fill, steady_fd|intros e]. apply steady_ret.
Qed.
Lemma steady_apis : forall capapi cap n ix, steady (get_iocr_apis capapi cap ix n).
Proof.
  intros capapi cap n. induction n as [|n IH]; intros ix; cbn [get_iocr_apis]; [apply steady_ret|].
  intros r a r' E. destruct (capapi <=? ix)%nat; [discriminate|]. revert E. apply steady_bind; [apply steady_entry|intros x].
  destruct (fst x); [|apply steady_ret]. apply steady_bind; [apply IH|intros y; apply steady_ret].
Qed.
Lemma steady_iocr : forall capapi cap m, steady (get_iocr_param capapi cap m).
Proof.
  intros capapi cap m. unfold get_iocr_param. do 16 (apply steady_bind; [first [apply steady_u16|apply steady_u32|apply steady_mem_into; lia]|intros ?]).
  cbn zeta. match goal with |- steady (if ?x then _ else _) => destruct x end; [apply steady_ret|]. apply steady_bind; [apply steady_apis|intros ?; apply steady_ret].
Qed.
Lemma steady_name : forall cap old, 1 <= cap -> steady (get_station_name cap old).
Proof.
  intros cap old C. unfold get_station_name. apply steady_bind_u16. intros n N. set (k := if cap - 1 <? n then cap - 1 else n).
  assert (0 <= k) by (unfold k; destruct (cap - 1 <? n); lia). clearbody k. apply steady_bind; [apply steady_mem_into; assumption|intros s].
  intros r a r' E. destruct (Z.to_nat k <? length s)%nat; [|discriminate]. injection E as <- <-. repeat split; auto; lia.
Qed.
Lemma steady_ar : forall o1 o2 m n, steady (get_ar_param o1 o2 m n).
Proof.
  intros o1 o2 m n. unfold get_ar_param.
  do 8 (apply steady_bind; [first [apply steady_u16|apply steady_u32|apply steady_mem_into; lia|apply steady_uuid]|intros ?]).
  apply steady_bind; [apply steady_name; lia|intros ?; apply steady_ret].
Qed.
Lemma steady_dd : steady get_data_desc.
Proof. unfold get_data_desc. st. Qed.
Lemma steady_sub : steady get_exp_submodule.
Proof.
  unfold get_exp_submodule. do 3 (apply steady_bind; [first [apply steady_u16|apply steady_u32]|intros ?]). cbn zeta. apply steady_bind; [apply steady_dd|intros ?].
  match goal with |- steady (if ?x then _ else _) => destruct x end; [|apply steady_ret]. apply steady_bind; [apply steady_dd|intros ?; apply steady_ret].
Qed.
Lemma steady_res : forall A e (m : reader A), e <> POk -> steady m -> steady (fun r => m (set_res r e)).
Proof. intros A e m N M r a r' E. destruct (M _ _ _ E) as (A1 & A2 & A3 & A4 & A5). cbn in *. repeat split; auto; try (intros; apply A5; assumption). Qed.
Lemma steady_exp : forall c n cur apis, steady (exp_loop c n cur apis).
Proof.
  intros c n. induction n as [|n IH]; intros cur apis; cbn [exp_loop]; [apply steady_ret|]. apply steady_bind; [apply steady_u32|intros a]. cbn zeta.
  match goal with |- steady (match ?x with _ => _ end) => destruct x as [ix|] end; [|apply steady_res; [discriminate|apply IH]].
  apply steady_bind; [apply steady_u16|intros slot]. match goal with |- steady (match ?x with _ => _ end) => destruct x as [e|] end; [|intros r x r' E; discriminate].
  destruct (length (ea_mods e) <? c_slots c)%nat; [|apply steady_res; [discriminate|apply IH]].
  do 3 (apply steady_bind; [first [apply steady_u16|apply steady_u32]|intros ?]). apply steady_bind; [apply steady_fill, steady_sub|intros ?]. apply IH.
Qed.
Lemma steady_exps : forall c apis, steady (get_exp_api_module c apis).
Proof. intros c apis. unfold get_exp_api_module. apply steady_bind; [apply steady_u16|intros n; apply steady_exp]. Qed.
Lemma steady_alarm : steady get_alarm_cr_request.
Proof. unfold get_alarm_cr_request. st. Qed.

(** * One block *)

Section Request.
Variable b : list Z.
Hypothesis bytes : Forall byte b.
Hypothesis small : Z.of_nat (length b) < 65536.
Variables (c : caps) (cr : nat).
Let len := Z.of_nat (length b).

Lemma reads_on : forall A (m : reader A) j a r', steady m -> 0 <= j <= len -> m (rdr b j) = Ok (a, r') -> r_res r' <> POk \/ exists k, r' = rdr b k /\ j <= k <= len.
Proof.
  intros A m j a r' S J E. destruct (S _ _ _ E) as (A1 & A2 & A3 & _ & A5). destruct r' as [rb rl re rr rp]. cbn in *. specialize (A5 ltac:(lia) small). subst.
  destruct rr; [right; exists rp; split; [reflexivity|fold len in A5; lia]|left; discriminate..].
Qed.

Definition told_of (s : asked) : told := (s_crs s, s_exp s, s_alarms s, s_rpcs s).

Lemma access_bit : forall s, access s = Z.testbit (ar_props (s_ar s)) 8.
Proof.
  intros s. change (access s) with (negb (Z.land (Z.shiftr (ar_props (s_ar s)) 8) (Z.ones 1) =? 0)). rewrite Z.land_ones by lia. change (2 ^ 1) with 2.
  rewrite Zmod_odd, <- Z.bit0_odd, Z.shiftr_spec by lia. cbn [Z.add]. destruct (Z.testbit (ar_props (s_ar s)) 8); reflexivity.
Qed.

(** What a block does, as the grammar says it. *)
Inductive takes (i n : Z) (s : asked) : bool -> asked -> Prop :=
| T_ar : forall a, header b i 257 (54 + strlen (ar_name a)) -> holds b (get_ar_param (repeat 0 8) (repeat 0 8) (repeat 0 6) (repeat 0 241)) i n a ->
    takes i n s true (mkAsked a (S (s_nar s)) (s_crs s) (s_exp s) (s_alarms s) (s_rpcs s))
| T_iocr : forall first p, header b i 258 (n - 4) -> holds b (get_iocr_param (c_api c) (c_slots c * c_subslots c) (repeat 0 6)) i n (true, p) ->
    ~ only_access (s_ar s) -> (length (s_crs s) < cr)%nat -> takes i n s first (mkAsked (s_ar s) (s_nar s) (s_crs s ++ [p]) (s_exp s) (s_alarms s) (s_rpcs s))
| T_expected : forall first ex', header b i 260 (n - 4) -> holds b (get_exp_api_module c (s_exp s)) i n ex' ->
    ~ only_access (s_ar s) -> takes i n s first (mkAsked (s_ar s) (s_nar s) (s_crs s) ex' (s_alarms s) (s_rpcs s))
| T_alarm : forall first l, header b i 259 (n - 4) -> holds b get_alarm_cr_request i n l ->
    ~ only_access (s_ar s) -> takes i n s first (mkAsked (s_ar s) (s_nar s) (s_crs s) (s_exp s) (s_alarms s ++ [l]) (s_rpcs s))
| T_rpc : forall first p, header b i 263 (n - 4) -> holds b get_u16 i n p ->
    ~ only_access (s_ar s) -> takes i n s first (mkAsked (s_ar s) (s_nar s) (s_crs s) (s_exp s) (s_alarms s) (s_rpcs s ++ [p])).

Lemma at16_u16 : forall i, 0 <= at16 b i < 65536.
Proof.
  intros i. assert (H : forall j, 0 <= at8 b j < 256).
  { intros j. unfold at8. destruct (Nat.lt_ge_cases (Z.to_nat j) (length b)) as [H|H]; [|rewrite nth_overflow by lia; lia].
    rewrite Forall_forall in bytes. apply bytes. apply nth_In. exact H. }
  unfold at16. pose proof (H i). pose proof (H (i + 1)). lia.
Qed.

Lemma strlen_le : forall l, 0 <= strlen l <= Z.of_nat (length l).
Proof. induction l as [|x l IH]; cbn [strlen length]; [lia|]. destruct (x =? 0); lia. Qed.

Lemma check_fine : forall i ty k code, at16 b i = ty -> i + 6 <= len -> i + 4 + at16 b (i + 2) <= len -> check_header k (header_at b i) code = None <-> header b i ty k.
Proof.
  intros i ty k code T L6 L. unfold check_header, header, header_at. cbn [b_length b_vhigh b_vlow]. fold len.
  destruct (Z.eqb_spec (at16 b (i + 2)) k) as [K|K]; cbn [negb]; [|split; [discriminate|intros (_ & ? & _); contradiction]].
  destruct (Z.eqb_spec (at8 b (i + 4)) 1) as [V|V]; cbn [negb]; [|split; [discriminate|intros (_ & _ & ? & _); contradiction]].
  destruct (Z.eqb_spec (at8 b (i + 5)) 0) as [W|W]; cbn [negb]; [|split; [discriminate|intros (_ & _ & _ & ? & _); contradiction]].
  split; [intros _; repeat split; auto; lia|reflexivity].
Qed.

Lemma counted_fine : forall i ty s k code s' s1, at16 b i = ty -> i + 6 <= len -> i + 4 + at16 b (i + 2) <= len ->
  counted s (header_at b i) k code s' = inl s1 <-> s1 = s' /\ ~ only_access (s_ar s) /\ header b i ty k.
Proof.
  intros i ty s k code s' s1 T L6 L. unfold counted, only_access. rewrite access_bit. pose proof (check_fine i ty k code T L6 L) as C.
  destruct (Z.testbit (ar_props (s_ar s)) 8); [split; [discriminate|intros (_ & X & _); congruence]|].
  destruct (check_header k (header_at b i) code); split; try discriminate.
  - intros (_ & _ & X). apply C in X. discriminate.
  - intros [= <-]. split; [reflexivity|]. split; [discriminate|]. apply C. reflexivity.
  - intros (-> & _). reflexivity.
Qed.

Lemma block_sound : forall i first s s1 r2, 0 <= i -> i + 6 <= len -> i + 4 + at16 b (i + 2) <= len ->
  conn_block c cr first (header_at b i) s (rdr b (i + 6)) = Ok (inl s1, r2) ->
  r_res r2 <> POk \/ exists n, 6 <= n /\ i + n <= len /\ r2 = rdr b (i + n) /\ takes i n s first s1.
Proof.
  intros i first s s1 r2 I L6 L E. unfold conn_block in E. cbn [header_at b_type] in E. fold (header_at b i) in E.
  assert (R : forall A (m : reader A) a r', steady m -> m (rdr b (i + 6)) = Ok (a, r') -> r_res r' <> POk \/ exists n, r' = rdr b (i + n) /\ 6 <= n /\ i + n <= len).
  { intros A m a r' S X. destruct (reads_on A m (i + 6) a r' S ltac:(lia) X) as [F|(k & -> & K)]; [left; exact F|right]. exists (k - i). replace (i + (k - i)) with k by lia. repeat split; lia. }
  assert (U : forall n, 6 <= n -> i + n <= len -> u16 (r_pos (rdr b (i + n)) - r_pos (rdr b (i + 6)) + 2) = n - 4)
    by (intros n N1 N2; cbn [rdr r_pos]; rewrite u16_id by (fold len in small; lia); lia).
  destruct (Z.eqb_spec (at16 b i) 257) as [T|T].
  { destruct (get_ar_param _ _ _ _ (rdr b (i + 6))) as [[a r']| |] eqn:X; cbn [obind] in E; try discriminate. destruct first; cbn [negb] in E; [|discriminate].
    destruct (check_header _ (header_at b i) 1) eqn:C; [discriminate|]. injection E as <- <-.
    destruct (R _ _ _ _ (steady_ar _ _ _ _) X) as [F|(n & -> & N1 & N2)]; [left; exact F|right; exists n]. repeat (split; [assumption || reflexivity|]).
    apply T_ar; [|exact X]. apply (check_fine i 257 _ 1 T L6 L) in C. pose proof (at16_u16 (i + 2)) as Q.
    assert (B : 0 <= strlen (ar_name a) <= 241).
    { destruct (safe_ar_param true (repeat 0 8) (repeat 0 8) (repeat 0 6) (repeat 0 241) eq_refl eq_refl eq_refl eq_refl (rdr b (i + 6))) as (a' & r'' & X' & Y & _).
      - unfold rok, rdr; cbn [r_pos r_len r_buf]. fold len. fold len in small. repeat split; try lia. exact bytes.
      - rewrite X in X'. injection X' as <- <-. pose proof (strlen_le (ar_name a)). lia. }
    rewrite u16_id in C by lia. exact C. }
  destruct (Z.eqb_spec (at16 b i) 258) as [T1|T1].
  { destruct (Nat.leb_spec cr (length (s_crs s))) as [G|G]; [discriminate|].
    destruct (get_iocr_param _ _ _ (rdr b (i + 6))) as [[[ok p] r']| |] eqn:X; cbn [obind] in E; try discriminate. injection E as E <-. destruct ok; [|discriminate].
    destruct (R _ _ _ _ (steady_iocr _ _ _) X) as [F|(n & -> & N1 & N2)]; [left; exact F|right; exists n]. repeat (split; [assumption || reflexivity|]).
    rewrite U in E by assumption. apply (counted_fine i 258) in E; [|assumption..]. destruct E as (-> & A & H). apply T_iocr; assumption. }
  destruct (Z.eqb_spec (at16 b i) 260) as [T2|T2].
  { destruct (get_exp_api_module _ _ (rdr b (i + 6))) as [[ex r']| |] eqn:X; cbn [obind] in E; try discriminate. injection E as E <-.
    destruct (R _ _ _ _ (steady_exps _ _) X) as [F|(n & -> & N1 & N2)]; [left; exact F|right; exists n]. repeat (split; [assumption || reflexivity|]).
    cbn [rdr r_res] in E. fold (rdr b (i + n)) in E. fold (rdr b (i + 6)) in E.
    rewrite U in E by assumption. apply (counted_fine i 260) in E; [|assumption..]. destruct E as (-> & A & H). apply T_expected; assumption. }
  destruct (Z.eqb_spec (at16 b i) 259) as [T3|T3].
  { destruct (get_alarm_cr_request (rdr b (i + 6))) as [[l r']| |] eqn:X; cbn [obind] in E; try discriminate. injection E as E <-.
    destruct (R _ _ _ _ steady_alarm X) as [F|(n & -> & N1 & N2)]; [left; exact F|right; exists n]. repeat (split; [assumption || reflexivity|]).
    rewrite U in E by assumption. apply (counted_fine i 259) in E; [|assumption..]. destruct E as (-> & A & H). apply T_alarm; assumption. }
  destruct (Z.eqb_spec (at16 b i) 263) as [T4|T4]; [|discriminate].
  destruct (get_ar_rpc_request (rdr b (i + 6))) as [[l r']| |] eqn:X; cbn [obind] in E; try discriminate. injection E as E <-.
  destruct (R _ _ _ _ steady_u16 X) as [F|(n & -> & N1 & N2)]; [left; exact F|right; exists n]. repeat (split; [assumption || reflexivity|]).
  rewrite U in E by assumption. apply (counted_fine i 263) in E; [|assumption..]. destruct E as (-> & A & H). apply T_rpc; assumption.
Qed.

Lemma holds_size : forall A (m : reader A) i n a, steady m -> 0 <= i -> i + 6 <= len -> holds b m i n a -> 6 <= n /\ i + n <= len.
Proof. intros A m i n a S I L H. destruct (S _ _ _ H) as (_ & _ & _ & _ & X). cbn [rdr r_pos r_len] in X. specialize (X ltac:(lia) small). fold len in X. lia. Qed.

Lemma takes_size : forall i n s first s1, 0 <= i -> takes i n s first s1 -> 6 <= n /\ i + n <= len /\ i + 6 <= len /\ i + 4 + at16 b (i + 2) <= len.
Proof.
  intros i n s first s1 I T. destruct T as [a H X|f p H X _ _|f ex H X _|f l H X _|f p H X _]; destruct H as (_ & H2 & _ & _ & H5 & H6); fold len in H5, H6; rewrite H2;
  (eapply holds_size in X; [|first [apply steady_ar|apply steady_iocr|apply steady_exps|apply steady_alarm|apply steady_u16]|assumption..]); lia.
Qed.

Lemma block_complete : forall i n first s s1, 0 <= i -> takes i n s first s1 -> conn_block c cr first (header_at b i) s (rdr b (i + 6)) = Ok (inl s1, rdr b (i + n)).
Proof.
  intros i n first s s1 I T. destruct (takes_size i n s first s1 I T) as (N1 & N2 & L6 & L).
  assert (U : u16 (r_pos (rdr b (i + n)) - r_pos (rdr b (i + 6)) + 2) = n - 4) by (cbn [rdr r_pos]; rewrite u16_id by (fold len in small; lia); lia).
  unfold conn_block. cbn [header_at b_type]. fold (header_at b i). unfold holds in *.
  destruct T as [a H X|f p H X A G|f ex H X A|f l H X A|f p H X A]; pose proof (proj1 H) as Ty; rewrite Ty; cbn [Z.eqb Pos.eqb].
  - rewrite X. cbn [obind negb]. apply (check_fine i 257 _ 1 Ty L6 L) in H as C. pose proof (at16_u16 (i + 2)). destruct H as (_ & H & _). rewrite u16_id by lia. rewrite C. reflexivity.
  - destruct (Nat.leb_spec cr (length (s_crs s))); [lia|]. rewrite X. cbn [obind]. rewrite U. do 2 f_equal. apply (counted_fine i 258); auto.
  - rewrite X. cbn [obind]. rewrite U. cbn [rdr r_res]. do 2 f_equal. apply (counted_fine i 260); auto.
  - rewrite X. cbn [obind]. rewrite U. do 2 f_equal. apply (counted_fine i 259); auto.
  - unfold get_ar_rpc_request. rewrite X. cbn [obind]. rewrite U. do 2 f_equal. apply (counted_fine i 263); auto.
Qed.

(** * The request *)

Lemma conn_S : forall n first s i, 0 <= i -> conn_blocks (S n) c cr first s (rdr b i) =
  if i + 6 <=? len then
    if i + 4 + at16 b (i + 2) <=? len then
      do y <- conn_block c cr first (header_at b i) s (rdr b (i + 6));
      match y with (inl s', r2) => conn_blocks n c cr false s' r2 | (inr e, r2) => Ok (inr e, r2) end
    else Ok (inr (e_cmrpc 1), rdr b (i + 6))
  else Ok (inl s, rdr b i).
Proof.
  intros n first s i I. cbn [conn_blocks rdr r_pos r_len r_res is_ok andb]. fold len. destruct (Z.leb_spec (i + 6) len) as [L|L]; [|reflexivity].
  destruct (ex_header b bytes small) as (H1 & _). fold (rdr b i). rewrite H1 by (fold len; lia). cbn [obind rdr r_pos r_len r_res is_ok andb]. fold len. fold (rdr b (i + 6)).
  change (b_length (header_at b i)) with (at16 b (i + 2)). replace (i + 6 + at16 b (i + 2) + 4 - 6) with (i + 4 + at16 b (i + 2)) by lia. reflexivity.
Qed.

Lemma conn_failed : forall n first s r, r_res r <> POk -> conn_blocks (S n) c cr first s r = Ok (inl s, r).
Proof. intros n first s r R. cbn [conn_blocks]. destruct (r_res r); [congruence|reflexivity..]. Qed.

Lemma takes_more : forall i n s s1 x, takes i n s false s1 -> more b c cr (s_ar s1) (told_of s1) (i + n) x -> more b c cr (s_ar s) (told_of s) i x /\ s_ar s1 = s_ar s /\ s_nar s1 = s_nar s.
Proof.
  intros i n s s1 x T M. inversion T; subst; cbn [s_ar s_nar told_of s_crs s_exp s_alarms s_rpcs] in *; (split; [|split; reflexivity]).
  - eapply M_iocr; eassumption.
  - eapply M_expected; eassumption.
  - eapply M_alarm; eassumption.
  - eapply M_rpc; eassumption.
Qed.

Lemma rest_sound : forall n s i s' r', 0 <= i <= len -> conn_blocks n c cr false s (rdr b i) = Ok (inl s', r') -> r_res r' = POk -> r_pos r' = r_len r' ->
  more b c cr (s_ar s) (told_of s) i (told_of s') /\ s_ar s' = s_ar s /\ s_nar s' = s_nar s /\ r' = rdr b len.
Proof.
  induction n as [|n IH]; intros s i s' r' I E R P; [discriminate|]. rewrite conn_S in E by lia.
  destruct (Z.leb_spec (i + 6) len) as [L6|L6].
  2:{ injection E as <- <-. cbn [rdr r_pos r_len] in P. subst i. fold len. split; [apply M_end|auto]. }
  destruct (Z.leb_spec (i + 4 + at16 b (i + 2)) len) as [L|L]; [|discriminate].
  destruct (conn_block c cr false (header_at b i) s (rdr b (i + 6))) as [[[s1|e] r2]| |] eqn:B; cbn [obind] in E; try discriminate.
  destruct (block_sound i false s s1 r2 ltac:(lia) L6 L B) as [F|(k & K1 & K2 & -> & T)].
  - destruct n; [discriminate|]. rewrite conn_failed in E by exact F. injection E as <- <-. contradiction.
  - destruct (IH s1 (i + k) s' r' ltac:(lia) E R P) as (M & A & N & Q). destruct (takes_more i k s s1 (told_of s') T M) as (M' & A' & N').
    split; [exact M'|]. split; [congruence|]. split; [congruence|exact Q].
Qed.

Lemma rest_complete : forall a x i y, more b c cr a x i y -> forall n s first, told_of s = x -> s_ar s = a -> 0 <= i -> (Z.to_nat (len - i) < n)%nat ->
  exists s', conn_blocks n c cr first s (rdr b i) = Ok (inl s', rdr b len) /\ told_of s' = y /\ s_ar s' = a /\ s_nar s' = s_nar s.
Proof.
  assert (W : forall i k s s1 first y a, takes i k s first s1 -> 0 <= i -> s_ar s1 = a ->
    (forall n s first, told_of s = told_of s1 -> s_ar s = a -> 0 <= i + k -> (Z.to_nat (len - (i + k)) < n)%nat ->
      exists s', conn_blocks n c cr first s (rdr b (i + k)) = Ok (inl s', rdr b len) /\ told_of s' = y /\ s_ar s' = a /\ s_nar s' = s_nar s) ->
    forall n, (Z.to_nat (len - i) < n)%nat -> exists s', conn_blocks n c cr first s (rdr b i) = Ok (inl s', rdr b len) /\ told_of s' = y /\ s_ar s' = a /\ s_nar s' = s_nar s1).
  { intros i k s s1 first y a T I A H n N. destruct n as [|n]; [lia|]. destruct (takes_size i k s first s1 I T) as (K1 & K2 & K3 & K4). rewrite conn_S by lia.
    destruct (Z.leb_spec (i + 6) len); [|lia]. destruct (Z.leb_spec (i + 4 + at16 b (i + 2)) len); [|lia]. rewrite (block_complete i k first s s1 I T). cbn [obind].
    apply H; [reflexivity|exact A|lia|lia]. }
  intros a x i y M. induction M as [x|crs ex al rp i n p x H X A G M IH|crs ex al rp i n ex' x H X A M IH|crs ex al rp i n l x H X A M IH|crs ex al rp i n p x H X A M IH]; intros k s first T S I K.
  - destruct k as [|k]; [lia|]. rewrite conn_S by lia. fold len. destruct (Z.leb_spec (len + 6) len); [lia|]. exists s. auto.
  - injection T as <- <- <- <-. subst a. destruct (W i n s _ first x (s_ar s) (T_iocr i n s first p H X A G) I eq_refl IH k K) as (s' & Q). exists s'. exact Q.
  - injection T as <- <- <- <-. subst a. destruct (W i n s _ first x (s_ar s) (T_expected i n s first ex' H X A) I eq_refl IH k K) as (s' & Q). exists s'. exact Q.
  - injection T as <- <- <- <-. subst a. destruct (W i n s _ first x (s_ar s) (T_alarm i n s first l H X A) I eq_refl IH k K) as (s' & Q). exists s'. exact Q.
  - injection T as <- <- <- <-. subst a. destruct (W i n s _ first x (s_ar s) (T_rpc i n s first p H X A) I eq_refl IH k K) as (s' & Q). exists s'. exact Q.
Qed.

Lemma all_sound : forall n i s' r', 0 <= i <= len -> conn_blocks n c cr true fresh (rdr b i) = Ok (inl s', r') -> r_res r' = POk -> r_pos r' = r_len r' ->
  request b c cr i s' /\ r' = rdr b len.
Proof.
  intros n i s' r' I E R P. destruct n as [|n]; [discriminate|]. rewrite conn_S in E by lia.
  destruct s' as [ar nar crs ex al rp].
  destruct (Z.leb_spec (i + 6) len) as [L6|L6].
  2:{ injection E as <- <- <- <- <- <- <-. cbn [rdr r_pos r_len] in P. subst i. fold len. split; [apply R_none, M_end|auto]. }
  destruct (Z.leb_spec (i + 4 + at16 b (i + 2)) len) as [L|L]; [|discriminate].
  destruct (conn_block c cr true (header_at b i) fresh (rdr b (i + 6))) as [[[s1|e] r2]| |] eqn:B; cbn [obind] in E; try discriminate.
  destruct (block_sound i true fresh s1 r2 ltac:(lia) L6 L B) as [F|(k & K1 & K2 & -> & T)].
  { destruct n; [discriminate|]. rewrite conn_failed in E by exact F. injection E as <- <-. contradiction. }
  destruct (rest_sound n s1 (i + k) _ r' ltac:(lia) E R P) as (M & A & N & Q). split; [|exact Q]. cbn [s_ar s_nar] in A, N. subst ar nar.
  inversion T; subst; cbn [s_ar s_nar] in *.
  - eapply R_ar; eassumption.
  - apply R_none. eapply M_iocr; eassumption.
  - apply R_none. eapply M_expected; eassumption.
  - apply R_none. eapply M_alarm; eassumption.
  - apply R_none. eapply M_rpc; eassumption.
Qed.

Lemma all_complete : forall n i s', 0 <= i <= len -> (Z.to_nat (len - i) < n)%nat -> request b c cr i s' -> conn_blocks n c cr true fresh (rdr b i) = Ok (inl s', rdr b len).
Proof.
  assert (SAME : forall s a crs ex al rp k, told_of s = (crs, ex, al, rp) -> s_ar s = a -> s_nar s = k -> s = mkAsked a k crs ex al rp)
    by (intros [x1 x2 x3 x4 x5 x6] a crs ex al rp k [= <- <- <- <-] <- <-; reflexivity).
  intros n i s' I N Q. destruct Q as [a k crs ex al rp H X M|crs ex al rp M].
  - destruct n as [|n]; [lia|]. pose proof (T_ar i k fresh a H X) as T. destruct (takes_size i k _ _ _ ltac:(lia) T) as (K1 & K2 & K3 & K4). rewrite conn_S by lia.
    destruct (Z.leb_spec (i + 6) len); [|lia]. destruct (Z.leb_spec (i + 4 + at16 b (i + 2)) len); [|lia]. rewrite (block_complete i k true fresh _ ltac:(lia) T). cbn [obind].
    destruct (rest_complete _ _ _ _ M n (mkAsked a 1 [] [] [] []) false eq_refl eq_refl ltac:(lia) ltac:(lia)) as (s' & E & A1 & A2 & A3). cbn [fresh s_nar s_crs s_exp s_alarms s_rpcs]. rewrite E.
    cbn [s_nar] in A3. rewrite (SAME s' a crs ex al rp 1%nat A1 A2 A3). reflexivity.
  - destruct (rest_complete _ _ _ _ M n fresh true eq_refl eq_refl ltac:(lia) N) as (s' & E & A1 & A2 & A3). rewrite E. rewrite (SAME s' _ _ _ _ _ 0%nat A1 A2 A3). reflexivity.
Qed.
End Request.

(** C131: exactly the connect requests of this grammar, with args_length telling the length of all blocks, are taken,
    and what is then asked for is what they tell.  All others are refused. *)
Theorem C131_taken : forall b c cr fuel args i s, Forall byte b -> Z.of_nat (length b) < 65536 -> 0 <= i <= Z.of_nat (length b) ->
  (Z.to_nat (Z.of_nat (length b) - i) < fuel)%nat ->
  conn_interpret fuel c cr args (rdr b i) = Ok (inl s) <-> request b c cr i s /\ args = Z.of_nat (length b) - i.
Proof.
  intros b c cr fuel args i s B S I F. unfold conn_interpret. split.
  - intros E. destruct (conn_blocks fuel c cr true fresh (rdr b i)) as [[[s0|e] r']| |] eqn:X; cbn [obind] in E; try discriminate.
    destruct (r_res r') eqn:R; cbn [is_ok] in E; try discriminate. destruct (Z.eqb_spec (r_pos r') (r_len r')) as [P|P]; cbn [negb] in E; [|discriminate].
    destruct (Z.eqb_spec (u32 (r_pos r' - r_pos (rdr b i))) args) as [G|G]; cbn [negb] in E; [|discriminate]. injection E as <-.
    destruct (all_sound b B S c cr fuel i s0 r' I X R P) as (Q & ->). split; [exact Q|]. cbn [rdr r_pos] in G. rewrite u32_id in G by lia. lia.
  - intros (Q & ->). rewrite (all_complete b B S c cr fuel i s I F Q). cbn [obind rdr r_res is_ok r_pos r_len]. rewrite Z.eqb_refl. cbn [negb]. rewrite u32_id by lia. rewrite Z.eqb_refl. reflexivity.
Qed.
Print Assumptions C131_taken.

(** C131: a request of this grammar with another args_length is answered with "args length invalid". *)
Theorem C131_args : forall b c cr fuel args i s, Forall byte b -> Z.of_nat (length b) < 65536 -> 0 <= i <= Z.of_nat (length b) ->
  (Z.to_nat (Z.of_nat (length b) - i) < fuel)%nat -> request b c cr i s -> args <> Z.of_nat (length b) - i ->
  conn_interpret fuel c cr args (rdr b i) = Ok (inr (mkPnio 219 129 64 0)).
Proof.
  intros b c cr fuel args i s B S I F Q N. unfold conn_interpret. rewrite (all_complete b B S c cr fuel i s I F Q). cbn [obind rdr r_res is_ok r_pos r_len]. rewrite Z.eqb_refl. cbn [negb].
  rewrite u32_id by lia. destruct (Z.eqb_spec (Z.of_nat (length b) - i) args); [congruence|reflexivity].
Qed.
Print Assumptions C131_args.

(** C131: what is asked for fits into the tables, and with device access there is nothing but the AR block. *)
Lemma more_fits : forall b c cr a x i y, more b c cr a x i y -> (length (fst (fst (fst x))) <= cr)%nat -> (length (fst (fst (fst y))) <= cr)%nat /\ (only_access a -> y = x /\ i = Z.of_nat (length b)).
Proof. intros b c cr a x i y M. induction M; cbn [fst] in *; intros L; [auto|..]; (split; [apply IHM; rewrite ?app_length; cbn [length]; lia|intros; contradiction]). Qed.

Theorem C131_fits : forall b c cr i s, request b c cr i s -> (length (s_crs s) <= cr)%nat /\ (s_nar s <= 1)%nat /\
  (only_access (s_ar s) -> s_crs s = [] /\ s_exp s = [] /\ s_alarms s = [] /\ s_rpcs s = []).
Proof.
  intros b c cr i s Q. destruct Q as [a n crs ex al rp H X M|crs ex al rp M]; apply more_fits in M; cbn [fst length s_crs s_nar s_ar s_exp s_alarms s_rpcs] in *; try lia;
  destruct M as (M1 & M2); (split; [exact M1|split; [lia|]]); intros A; destruct (M2 A) as ([= -> -> -> ->] & _); auto.
Qed.
Print Assumptions C131_fits.

(** C131: every refusal is told as an error of the connect service. *)
Lemma block_answers : forall c cr first h s r e r', conn_block c cr first h s r = Ok (inr e, r') -> p_code e = 219 /\ p_decode e = 129.
Proof.
  assert (K : forall len h code e, check_header len h code = Some e -> p_code e = 219 /\ p_decode e = 129)
    by (intros len h code e; unfold check_header; repeat match goal with |- context [if ?x then _ else _] => destruct x end; intros [= <-]; auto).
  assert (G : forall s h len code s' e, counted s h len code s' = inr e -> p_code e = 219 /\ p_decode e = 129)
    by (intros s h len code s' e; unfold counted; destruct (access s); [intros [= <-]; auto|destruct (check_header len h code) eqn:C; [intros [= <-]; eauto|discriminate]]).
  intros c cr first h s r e r' E. unfold conn_block in E.
  repeat match type of E with (if ?x then _ else _) = _ => destruct x end; try (injection E as <- _; auto; fail).
  - destruct (get_ar_param _ _ _ _ r) as [[a r1]| |]; cbn [obind] in E; try discriminate. injection E as E _. destruct first; cbn [negb] in E; [|injection E as <-; auto].
    destruct (check_header _ h 1) eqn:C; [injection E as <-; eauto|discriminate].
  - destruct (get_iocr_param _ _ _ r) as [[[ok p] r1]| |]; cbn [obind] in E; try discriminate. injection E as E _. destruct ok; [eauto|injection E as <-; auto].
  - destruct (get_exp_api_module _ _ r) as [[a r1]| |]; cbn [obind] in E; try discriminate. injection E as E _. destruct (r_res r1); eauto; injection E as <-; auto.
  - destruct (get_alarm_cr_request r) as [[a r1]| |]; cbn [obind] in E; try discriminate. injection E as E _. eauto.
  - destruct (get_ar_rpc_request r) as [[a r1]| |]; cbn [obind] in E; try discriminate. injection E as E _. eauto.
Qed.

Lemma blocks_answers : forall n c cr first s r e r', conn_blocks n c cr first s r = Ok (inr e, r') -> p_code e = 219 /\ p_decode e = 129.
Proof.
  induction n as [|n IH]; intros c cr first s r e r' E; [discriminate|]. cbn [conn_blocks] in E. destruct (is_ok (r_res r) && (r_pos r + 6 <=? r_len r)); [|discriminate].
  destruct (get_block_header r) as [[h r1]| |]; cbn [obind] in E; try discriminate.
  destruct (is_ok (r_res r1) && (r_pos r1 + b_length h + 4 - 6 <=? r_len r1)); [|injection E as <- _; auto].
  destruct (conn_block c cr first h s r1) as [[[s1|e1] r2]| |] eqn:B; cbn [obind] in E; try discriminate; [eapply IH; exact E|].
  injection E as <- _. eapply block_answers. exact B.
Qed.

Theorem C131_answered : forall fuel c cr args r e, conn_interpret fuel c cr args r = Ok (inr e) -> p_code e = 219 /\ p_decode e = 129.
Proof.
  intros fuel c cr args r e E. unfold conn_interpret in E. destruct (conn_blocks fuel c cr true fresh r) as [[[s|e1] r']| |] eqn:X; cbn [obind] in E; try discriminate.
  - injection E as E. repeat match type of E with (if ?x then _ else _) = _ => destruct x end; try discriminate; injection E as <-; auto.
  - injection E as <-. eapply blocks_answers. exact X.
Qed.
Print Assumptions C131_answered.

(** C131: whatever arrives, the device takes or refuses it, with one exception: the submodules of an expected module may
    leave their table (C29). *)
Lemma rdr_rok : forall b j, Forall byte b -> Z.of_nat (length b) < 65536 -> 0 <= j <= Z.of_nat (length b) -> rok (rdr b j).
Proof. intros b j B S J. unfold rok, rdr; cbn [r_pos r_len r_buf]. repeat split; try lia. exact B. Qed.

Lemma safe_alarm_cr : safe true get_alarm_cr_request (fun _ => True).
Proof. unfold get_alarm_cr_request. repeat sstep. Qed.

Theorem C131_safe : forall b c cr fuel args i, Forall byte b -> Z.of_nat (length b) < 65536 -> 0 <= i <= Z.of_nat (length b) ->
  (Z.to_nat (Z.of_nat (length b) - i) + 1 < fuel)%nat ->
  (exists x, conn_interpret fuel c cr args (rdr b i) = Ok x) \/
  (exists j apis, i <= j /\ at16 b j = 260 /\ j + 6 <= Z.of_nat (length b) /\ forall x, get_exp_api_module c apis (rdr b (j + 6)) <> Ok x).
Proof.
  intros b c cr fuel args i B S I F.
  assert (L : forall n first s j, i <= j <= Z.of_nat (length b) -> (Z.to_nat (Z.of_nat (length b) - j) + 1 < n)%nat ->
    (exists x, conn_blocks n c cr first s (rdr b j) = Ok x) \/
    (exists j apis, i <= j /\ at16 b j = 260 /\ j + 6 <= Z.of_nat (length b) /\ forall x, get_exp_api_module c apis (rdr b (j + 6)) <> Ok x)).
  { induction n as [|n IH]; intros first s j J N; [lia|]. rewrite conn_S by (assumption || lia).
    destruct (Z.leb_spec (j + 6) (Z.of_nat (length b))) as [L6|L6]; [|left; eauto].
    destruct (Z.leb_spec (j + 4 + at16 b (j + 2)) (Z.of_nat (length b))) as [L|L]; [|left; eauto].
    assert (K : (exists y, conn_block c cr first (header_at b j) s (rdr b (j + 6)) = Ok y) \/ (at16 b j = 260 /\ forall x, get_exp_api_module c (s_exp s) (rdr b (j + 6)) <> Ok x)).
    { pose proof (rdr_rok b (j + 6) B S ltac:(lia)) as R. unfold conn_block. cbn [header_at b_type]. fold (header_at b j).
      destruct (Z.eqb_spec (at16 b j) 257).
      { destruct (safe_ar_param true (repeat 0 8) (repeat 0 8) (repeat 0 6) (repeat 0 241) eq_refl eq_refl eq_refl eq_refl _ R) as (a & r & -> & _). left. eexists. reflexivity. }
      destruct (Z.eqb_spec (at16 b j) 258).
      { destruct (cr <=? length (s_crs s))%nat; [left; eauto|].
        destruct (safe_iocr_param true (c_api c) (c_slots c * c_subslots c) (repeat 0 6) eq_refl _ R) as ([ok p] & r & -> & _). left. eexists. reflexivity. }
      destruct (Z.eqb_spec (at16 b j) 260) as [T|T].
      { destruct (get_exp_api_module c (s_exp s) (rdr b (j + 6))) as [[a r]| |] eqn:X; [left; eexists; reflexivity|right; split; [exact T|discriminate]..]. }
      destruct (Z.eqb_spec (at16 b j) 259).
      { destruct (safe_alarm_cr _ R) as (a & r & -> & _). left. eexists. reflexivity. }
      destruct (Z.eqb_spec (at16 b j) 263); [|left; eauto].
      destruct (safe_u16 true _ R) as (a & r & E & _). unfold get_ar_rpc_request. rewrite E. left. eexists. reflexivity. }
    destruct K as [([[s1|e] r2] & K)|(K1 & K2)]; [| |right; exists j, (s_exp s); repeat split; auto; lia].
    - rewrite K. cbn [obind]. destruct (block_sound b B S c cr j first s s1 r2 ltac:(lia) L6 L K) as [Fl|(k & K1 & K2 & -> & _)].
      + left. destruct n; [lia|]. rewrite conn_failed by exact Fl. eauto.
      + apply IH; lia.
    - rewrite K. left. cbn [obind]. eauto. }
  unfold conn_interpret. destruct (L fuel true fresh i ltac:(lia) F) as [([y r'] & ->)|X]; [left|right; exact X]. cbn [obind]. eexists. reflexivity.
Qed.
Print Assumptions C131_safe.

(** C131: where the fields of alarm CR and RPC server blocks stand. *)
Definition alarm_at (b : list Z) (i : Z) : alarmp :=
  mkAlarmp (at16 b (i + 6)) (at16 b (i + 8)) (at32 b (i + 10) mod 2) (at32 b (i + 10) / 2 mod 2) (at16 b (i + 14)) (at16 b (i + 16)) (at16 b (i + 18)) (at16 b (i + 20))
    (at16 b (i + 22) mod 4096) (at16 b (i + 22) / 8192) (at16 b (i + 24) mod 4096) (at16 b (i + 24) / 8192).

Section Fields.
Variable b : list Z.
Hypothesis bytes : Forall byte b.
Hypothesis small : Z.of_nat (length b) < 65536.
Ltac exs := first [apply ex_ret | eapply ex_bind; cycle 2; [first [apply ex_u16; assumption|apply ex_u32; assumption|apply ex_byte; assumption]|intros ?; exs|lia|lia]].
Ltac norm := repeat match goal with |- context [?i + ?a + ?c] =>
  match a with Zpos _ => match c with Zpos _ =>
    let s := eval cbn in (a + c) in replace (i + a + c) with (i + s) by lia end end end.

Lemma ex_alarm_cr : exactly b 20 (fun i => alarm_at b (i - 6)) get_alarm_cr_request.
Proof.
  unfold get_alarm_cr_request. eapply ex_eq; [exs|reflexivity|]. intros i _ _. cbv beta. norm. unfold alarm_at.
  replace (i - 6 + 6) with i by lia. replace (i - 6 + 8) with (i + 2) by lia. replace (i - 6 + 10) with (i + 4) by lia. replace (i - 6 + 14) with (i + 8) by lia.
  replace (i - 6 + 16) with (i + 10) by lia. replace (i - 6 + 18) with (i + 12) by lia. replace (i - 6 + 20) with (i + 14) by lia. replace (i - 6 + 22) with (i + 16) by lia. replace (i - 6 + 24) with (i + 18) by lia.
  pose proof (at16_u16 b bytes (i + 16)) as H1. pose proof (at16_u16 b bytes (i + 18)) as H2.
  assert (H3 : 0 <= at32 b (i + 4) < 4294967296) by (unfold at32; pose proof (at16_u16 b bytes (i + 4)); pose proof (at16_u16 b bytes (i + 4 + 2)); lia).
  rewrite !BlockWriteProps.get_bits_val by lia. change (2 ^ 0) with 1. change (2 ^ 1) with 2. change (2 ^ 12) with 4096. change (2 ^ 13) with 8192. change (2 ^ 3) with 8. rewrite !Z.div_1_r.
  rewrite (Z.mod_small (at16 b (i + 16) / 8192)) by (split; [apply Z.div_pos; lia|apply Z.div_lt_upper_bound; lia]).
  rewrite (Z.mod_small (at16 b (i + 18) / 8192)) by (split; [apply Z.div_pos; lia|apply Z.div_lt_upper_bound; lia]). reflexivity.
Qed.
End Fields.

Lemma exactly_holds : forall A b n f (m : reader A) i k a, 0 < n -> exactly b n f m -> 0 <= i -> holds b m i k a -> k = 6 + n /\ a = f (i + 6).
Proof.
  intros A b n f m i k a N E I H. destruct (failed_fixed A b n f m (i + 6) E N ltac:(lia)) as [(_ & X)|(_ & v & r & X & _ & Y)]; unfold holds in H; rewrite X in H.
  - injection H as -> H. split; [lia|reflexivity].
  - injection H as _ ->. exfalso. apply Y. reflexivity.
Qed.

Theorem C131_fields : forall b i n l p, Forall byte b -> Z.of_nat (length b) < 65536 -> 0 <= i ->
  (holds b get_alarm_cr_request i n l -> n = 26 /\ l = alarm_at b i) /\ (holds b get_u16 i n p -> n = 8 /\ p = at16 b (i + 6)).
Proof.
  intros b i n l p B S I. split; intros H.
  - apply (exactly_holds _ b 20 _ _ i n l ltac:(lia) (ex_alarm_cr b B S) I) in H. replace (i + 6 - 6) with i in H by lia. exact H.
  - exact (exactly_holds _ b 2 _ _ i n p ltac:(lia) (ex_u16 b B S) I H).
Qed.
Print Assumptions C131_fields.

(** * Examples, and what does not hold *)

Definition ex_ar (len : Z) (props : list Z) (name : list Z) : list Z :=
  [1; 1; 0; len; 1; 0; 0; 1] ++ repeat 7 16 ++ [0; 5; 2; 2; 2; 2; 2; 2] ++ repeat 9 16 ++ props ++ [0; 100; 136; 146; 0; Z.of_nat (length name)] ++ name.
Definition ex_cr (ty : Z) : list Z := [1; 2; 0; 42; 1; 0; 0; ty] ++ repeat 0 36 ++ [0; 0].
Definition ex_rest : list Z := ex_cr 1 ++ ex_cr 2 ++ [1; 4; 0; 4; 1; 0; 0; 0] ++ [1; 3; 0; 22; 1; 0; 0; 1; 136; 146] ++ repeat 0 16 ++ [1; 7; 0; 4; 1; 0; 4; 1].
Definition ex_request : list Z := ex_ar 56 [0; 0; 0; 1] [97; 98] ++ ex_rest.

(** A request of every kind of block is taken; it is one of the grammar. *)
Example C131_example : exists s, request ex_request (mkCaps 1 4 4) 2 0 s /\ s_nar s = 1%nat /\ map i_type (s_crs s) = [1; 2] /\ map l_type (s_alarms s) = [1] /\ s_rpcs s = [1025] /\
  firstn 3 (ar_name (s_ar s)) = [97; 98; 0] /\ conn_interpret 300 (mkCaps 1 4 4) 2 194 (rdr ex_request 0) = Ok (inl s).
Proof.
  destruct (conn_interpret 300 (mkCaps 1 4 4) 2 194 (rdr ex_request 0)) as [[s|e]| |] eqn:E; try (vm_compute in E; discriminate). exists s.
  assert (B : Forall byte ex_request) by (vm_compute; repeat (constructor; [split; [discriminate|reflexivity]|]); constructor).
  split; [apply (C131_taken ex_request (mkCaps 1 4 4) 2 300 194 0 s B eq_refl ltac:(vm_compute; split; discriminate) ltac:(vm_compute; lia)) in E; apply E|].
  vm_compute in E. injection E as <-. vm_compute. repeat split.
Qed.

(** A third IOCR, and any block with device access: refused. *)
Example C131_third : conn_interpret 300 (mkCaps 1 4 4) 1 194 (rdr ex_request 0) = Ok (inr (mkPnio 219 129 64 3)).
Proof. vm_compute. reflexivity. Qed.
Example C131_access : conn_interpret 300 (mkCaps 1 4 4) 2 194 (rdr (ex_ar 56 [0; 0; 1; 0] [97; 98] ++ ex_rest) 0) = Ok (inr (mkPnio 219 129 64 1)).
Proof. vm_compute. reflexivity. Qed.
Example C131_again : conn_interpret 300 (mkCaps 1 4 4) 2 120 (rdr (ex_ar 56 [0; 0; 0; 1] [97; 98] ++ ex_ar 56 [0; 0; 0; 1] [97; 98]) 0) = Ok (inr (mkPnio 219 129 1 0)).
Proof. vm_compute. reflexivity. Qed.

(** Finding: the length in the header of an AR block is compared with the name up to its first zero, not with the block.
    A request that is one AR block need not have the length that its header tells. *)
Theorem C131_length_refuted : ~ (forall b c cr fuel s, Forall byte b -> conn_interpret fuel c cr (Z.of_nat (length b)) (rdr b 0) = Ok (inl s) -> at16 b 0 = 257 ->
  s_crs s = [] -> s_exp s = [] -> s_alarms s = [] -> s_rpcs s = [] -> 4 + at16 b 2 = Z.of_nat (length b)).
Proof.
  intros H. set (b := ex_ar 55 [0; 0; 0; 1] [97; 0; 98; 99]).
  destruct (conn_interpret 300 (mkCaps 1 4 4) 2 62 (rdr b 0)) as [[s|e]| |] eqn:E; try (vm_compute in E; discriminate).
  assert (B : Forall byte b) by (vm_compute; repeat (constructor; [split; [discriminate|reflexivity]|]); constructor).
  specialize (H b (mkCaps 1 4 4) 2%nat 300%nat s B E eq_refl). vm_compute in E. injection E as <-. specialize (H eq_refl eq_refl eq_refl eq_refl). vm_compute in H. discriminate.
Qed.
Print Assumptions C131_length_refuted.

(** Finding: a request without an AR block is taken apart like any other, also an empty one. *)
Theorem C131_none_refuted : ~ (forall b c cr fuel s, Forall byte b -> conn_interpret fuel c cr (Z.of_nat (length b)) (rdr b 0) = Ok (inl s) -> s_nar s = 1%nat).
Proof.
  intros H. destruct (conn_interpret 300 (mkCaps 1 4 4) 2 134 (rdr ex_rest 0)) as [[s|e]| |] eqn:E; try (vm_compute in E; discriminate).
  assert (B : Forall byte ex_rest) by (vm_compute; repeat (constructor; [split; [discriminate|reflexivity]|]); constructor).
  specialize (H ex_rest (mkCaps 1 4 4) 2%nat 300%nat s B E). vm_compute in E. injection E as <-. discriminate.
Qed.
Print Assumptions C131_none_refuted.

(** Finding (C29) as the controller sees it: an expected module with more submodules than the table has. *)
Theorem C131_submodules_refuted : ~ (forall b c cr fuel args, Forall byte b -> (length b < fuel)%nat -> conn_interpret fuel c cr args (rdr b 0) <> Ub).
Proof.
  intros H. set (b := ex_ar 56 [0; 0; 0; 1] [97; 98] ++ [1; 4; 0; 18; 1; 0; 0; 1; 0; 0; 0; 0; 0; 1; 0; 0; 0; 1; 0; 0; 0; 5]).
  assert (B : Forall byte b) by (vm_compute; repeat (constructor; [split; [discriminate|reflexivity]|]); constructor).
  refine (H b (mkCaps 1 4 4) 2%nat 300%nat 82 B _ _); [vm_compute; lia|vm_compute; reflexivity].
Qed.
Print Assumptions C131_submodules_refuted.
