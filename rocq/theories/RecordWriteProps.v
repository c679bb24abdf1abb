(** Write requests: data handed over (C107) and multiple writes (C110). *)
From Coq Require Import List ZArith Arith Lia Bool.
From Verif Require Import Base CpmModel CpmProps PpmModel PpmProps BlockModel BlockReadLemmas BlockReadProps BlockWriteProps FspmModel RecordModel.
Import ListNotations.
Local Open Scope Z_scope.

(** * C107 *)

(** The device with a list of everything handed over. *)
Definition logging {A} (dv : device A) : device (A * list (rwreq * list Z)) :=
  mkDev _ (fun s => a_ar dv (fst s)) (fun s => a_api dv (fst s)) (fun s => a_state dv (fst s)) (fun s => a_backup dv (fst s))
    (fun s => a_foreign dv (fst s))
    (fun s ar q d st => let '(a, ok, st') := a_write dv (fst s) ar q d st in ((a, snd s ++ [(q, d)]), ok, st')).

(** Specification: the data of request [q] are a part of the bytes received, of the length
    announced (other records than those of the application have 6 bytes of header in front
    of the data, which are counted in the length announced). *)
Definition part (d l : list Z) : Prop := exists u v, l = u ++ d ++ v.
Definition handed_well (l : list Z) (x : rwreq * list Z) : Prop :=
  part (snd x) l /\ Z.of_nat (length (snd x)) = (if q_index (fst x) <=? 32767 then q_len (fst x) else q_len (fst x) - 6).

(** The lengths for which the claim is proved. *)
Definition fine (q : rwreq) : Prop := q_len q <= 4294901760 /\ (q_index q <= 32767 \/ 6 <= q_len q).

(** The requests in the data: the block at the current position, and those that follow
    the data of the one before, at a multiple of 4. *)
Inductive reached : rwreq -> rd -> rwreq -> Prop :=
| reached_first : forall old r st q st' r1, write_interpret old st r = Ok ((true, q, st'), r1) -> reached old r q
| reached_next : forall old r st q0 st' r1 q, write_interpret old st r = Ok ((true, q0, st'), r1) ->
    reached q0 (set_pos r1 (align4 (r_pos r1 + q_len q0))) q -> reached old r q.
Definition executed (r : rd) (q : rwreq) : Prop :=
  exists st q0 st' r1, write_interpret rwreq0 st r = Ok ((true, q0, st'), r1) /\
  (if q_index q0 =? 57408 then reached rwreq0 r1 q else q = q0).

Definition qok (q : rwreq) : Prop := length (u_d4 (q_uuid q)) = 8%nat /\ u32v (q_len q) /\ u16v (q_index q).
Lemma qok0 : qok rwreq0.
Proof. unfold qok, u32v, u16v. cbn. split; [reflexivity|]. split; lia. Qed.

Lemma safe_skip : forall st n, safe st (skip_bytes n) (fun _ => True).
Proof. induction n as [|n IH]; cbn [skip_bytes]; [apply safe_ret; exact Logic.I|]. eapply safe_bind; [apply safe_byte|]. intros; exact IH. Qed.

Lemma safe_uuid8 : forall st old, length old = 8%nat -> safe st (get_uuid old) (fun u => length (u_d4 u) = 8%nat).
Proof.
  intros st old L. unfold get_uuid. eapply safe_bind; [apply safe_u32|intros a _]. eapply safe_bind; [apply safe_u16|intros b _].
  eapply safe_bind; [apply safe_u16|intros c _]. eapply safe_bind; [apply (safe_mem_into st 8 old 8); lia|]. intros v Hv. cbv beta in Hv.
  apply safe_ret. cbn [u_d4]. lia.
Qed.

Lemma safe_wreq : forall st old, length old = 8%nat -> safe st (get_write_request old) qok.
Proof.
  intros st old L. unfold get_write_request.
  eapply safe_bind; [apply safe_u16|intros s _]. eapply safe_bind; [apply safe_uuid8; exact L|intros u Hu].
  eapply safe_bind; [apply safe_u32|intros a _]. eapply safe_bind; [apply safe_u16|intros sl _]. eapply safe_bind; [apply safe_u16|intros ss _].
  eapply safe_bind; [apply safe_skip|intros t0 _]. eapply safe_bind; [apply safe_u16|intros ix Hix]. eapply safe_bind; [apply safe_u32|intros l Hl].
  eapply safe_bind; [apply safe_skip|intros t1 _]. apply safe_ret. unfold qok. cbn [q_uuid q_len q_index]. auto.
Qed.

(** A header that is there. *)
Lemma header_adv : forall r b, rok r -> r_buf r = Some b -> r_res r = POk -> r_pos r + 6 <= r_len r ->
  exists h, get_block_header r = Ok (h, set_pos r (r_pos r + 6)).
Proof.
  intros [rb rl be rr rp] b (A & B & C) Eb Er L. cbn [r_buf r_len r_res r_pos] in *. subst rb rr. destruct C as [C F].
  unfold get_block_header, rbind, rret. rewrite get_u16_raw by lia. cbn [obind]. rewrite get_u16_raw by lia. cbn [obind].
  rewrite get_byte_at by lia. cbn [obind]. rewrite get_byte_at by lia. cbn [obind].
  eexists. unfold set_pos. cbn [r_buf r_len r_be r_res]. do 3 f_equal. lia.
Qed.

Lemma interp : forall old st r b, rok r -> r_buf r = Some b -> qok old ->
  exists ok q st' r1, write_interpret old st r = Ok ((ok, q, st'), r1) /\ rstep false r r1 /\ qok q /\
  (ok = true -> r_pos r + 6 <= r_pos r1).
Proof.
  intros old st r b R Eb Q. unfold write_interpret. destruct (Z.leb_spec (r_pos r + 6) (r_len r)) as [L|L].
  - unfold rbind at 1. assert (Er : r_res r = POk \/ r_res r <> POk) by (destruct (r_res r); auto; right; discriminate). destruct Er as [Er|Er].
    + destruct (header_adv r b R Eb Er L) as (h & Eh). rewrite Eh. cbn [obind].
      assert (S1 : rstep false r (set_pos r (r_pos r + 6))).
      { destruct (safe_block_header false r R) as (h' & r' & E' & _ & S'). rewrite Eh in E'. injection E' as _ <-. exact S'. }
      set (r1 := set_pos r (r_pos r + 6)) in *.
      assert (P1 : r_pos r1 = r_pos r + 6) by reflexivity.
      destruct ((r_pos r1 + b_length h + 4 - 6 <=? r_len r1) && is_ok (r_res r1)).
      * destruct (b_type h =? 8).
        -- destruct (safe_wreq false _ (proj1 Q) r1 (rok_step _ _ _ R S1)) as (q & r2 & E2 & Q2 & S2).
           unfold rbind. rewrite E2. cbn [obind]. unfold rret. exists true, q, st, r2. split; [reflexivity|].
           split; [exact (rstep_trans _ _ _ _ S1 S2)|]. split; [exact Q2|]. intros _. destruct S2 as (_ & _ & X & _). lia.
        -- destruct (b_type h =? 592).
           ++ exists true, old, st, r1. split; [reflexivity|]. split; [exact S1|]. split; [exact Q|]. intros _. lia.
           ++ eexists false, old, _, r1. split; [reflexivity|]. split; [exact S1|]. split; [exact Q|discriminate].
      * exists false, old, st, r1. split; [reflexivity|]. split; [exact S1|]. split; [exact Q|discriminate].
    + destruct (safe_block_header false r R) as (h & r1 & E1 & _ & S1). rewrite E1. cbn [obind].
      assert (N : is_ok (r_res r1) = false).
      { destruct S1 as (_ & _ & _ & _ & X). destruct (X Er) as [_ Y]. destruct (r_res r1); congruence || reflexivity. }
      rewrite N, andb_false_r. exists false, old, st, r1. split; [reflexivity|]. split; [exact S1|]. split; [exact Q|discriminate].
  - exists false, old, st, r. split; [reflexivity|]. split; [apply rstep_refl|]. split; [exact Q|discriminate].
Qed.

(** After an error of the parser no further request is taken. *)
Lemma interp_err : forall old st r, rok r -> r_res r <> POk ->
  exists q st' r1, write_interpret old st r = Ok ((false, q, st'), r1).
Proof.
  intros old st r R Er. unfold write_interpret. destruct (r_pos r + 6 <=? r_len r).
  - destruct (safe_block_header false r R) as (h & r1 & E1 & _ & S1). unfold rbind at 1. rewrite E1. cbn [obind].
    assert (N : is_ok (r_res r1) = false).
    { destruct S1 as (_ & _ & _ & _ & X). destruct (X Er) as [_ Y]. destruct (r_res r1); congruence || reflexivity. }
    rewrite N, andb_false_r. eauto.
  - eauto.
Qed.

Lemma received_length : forall r b, rok r -> r_buf r = Some b -> Z.of_nat (length (received r)) = r_len r.
Proof. intros r b (A & B & C) Eb. unfold received. rewrite Eb in *. destruct C as [C _]. rewrite firstn_length. lia. Qed.

Lemma slice_part : forall l off n d, slice l off n = Ok d -> part d l /\ Z.of_nat (length d) = n.
Proof.
  intros l off n d E. apply slice_inv in E. destruct E as (A & B & C & ->). split.
  - exists (firstn (Z.to_nat off) l), (skipn (Z.to_nat n) (skipn (Z.to_nat off) l)).
    rewrite firstn_skipn. rewrite firstn_skipn. reflexivity.
  - rewrite firstn_length, skipn_length. lia.
Qed.

(** Handing over [n] bytes at [pos]. *)
Lemma rm_write_ok : forall A (dv : device A) a l ar q x b n pos st, 0 <= pos -> 0 <= n -> pos + n <= Z.of_nat (length b) -> Z.of_nat (length b) < 65536 ->
  exists a' l' ok st' x' pos', cmwrr_rm_write (logging dv) (a, l) ar q x b n pos st = Ok ((a', l'), ok, st', x', pos') /\
  (l' = l \/ exists d, l' = l ++ [(q, d)] /\ part d b /\ Z.of_nat (length d) = n) /\
  (pos' = pos + n \/ pos' = pos /\ ok = false /\ p_code (t_pnio st') = 129).
Proof.
  intros A dv a l ar q x b n pos st P N L M. unfold cmwrr_rm_write. cbv zeta. rewrite (u16_id n) by lia.
  assert (X : exists a' l' ok st' pos', cmwrr_write (logging dv) (a, l) ar q b n pos st = Ok ((a', l'), ok, st', pos') /\
    (l' = l \/ exists d, l' = l ++ [(q, d)] /\ part d b /\ Z.of_nat (length d) = n) /\ pos' = pos + n).
  { unfold cmwrr_write. rewrite (u16_id (pos + n)) by lia. destruct (a_foreign (logging dv) (a, l) ar q).
    - eexists a, l, false, _, _. split; [reflexivity|]. auto.
    - destruct (handed (q_index q)).
      + destruct (slice b pos n) as [d| |] eqn:E; [|rewrite slice_ok in E by lia; discriminate|rewrite slice_ok in E by lia; discriminate].
        cbn [obind logging a_write fst snd]. destruct (a_write dv a ar q d st) as [[a' ok] st'].
        eexists a', _, ok, st', _. split; [reflexivity|]. split; [|reflexivity]. right. exists d. split; [reflexivity|]. apply (slice_part _ _ _ _ E).
      + eexists a, l, false, st, _. split; [reflexivity|]. auto. }
  destruct (a_state (logging dv) (a, l) ar).
  - cbn [obind]. eexists a, l, false, _, _, pos. split; [reflexivity|]. split; [auto|]. right. split; [reflexivity|]. split; reflexivity.
  - destruct (a_backup (logging dv) (a, l) ar).
    + cbn [obind]. eexists a, l, false, _, _, pos. split; [reflexivity|]. split; [auto|]. right. split; [reflexivity|]. split; reflexivity.
    + destruct X as (a' & l' & ok & st' & pos' & -> & X1 & X2). cbn [obind]. eexists a', l', ok, st', _, pos'. split; [reflexivity|]. split; [exact X1|]. left. exact X2.
  - cbn [obind]. eexists a, l, false, _, _, pos. split; [reflexivity|]. split; [auto|]. right. split; [reflexivity|]. split; reflexivity.
  - destruct (a_backup (logging dv) (a, l) ar).
    + cbn [obind]. eexists a, l, false, _, _, pos. split; [reflexivity|]. split; [auto|]. right. split; [reflexivity|]. split; reflexivity.
    + destruct X as (a' & l' & ok & st' & pos' & -> & X1 & X2). cbn [obind]. eexists a', l', ok, st', _, pos'. split; [reflexivity|]. split; [exact X1|]. left. exact X2.
Qed.

Lemma once_code : forall st a b c d, p_code (t_pnio st) <> 0 -> set_error_once st a b c d = st.
Proof. intros st a b c d H. unfold set_error_once. destruct (Z.eqb_spec (p_code (t_pnio st)) 0); [congruence|reflexivity]. Qed.

Lemma one_ok : forall A (dv : device A) a l q x st r b, rok r -> r_buf r = Some b -> r_pos r <= r_len r -> qok q -> fine q ->
  Forall (handed_well (received r)) l ->
  exists a' l' ok st' x' r', one_write (logging dv) (a, l) q x st r = Ok ((a', l'), ok, st', x', r') /\
  Forall (handed_well (received r)) l' /\ r_buf r' = r_buf r /\ r_len r' = r_len r /\ r_pos r <= r_pos r' <= r_len r /\
  (p_code (x_pnio x') <> 0 \/ r_res r' <> POk \/ r' = set_pos r (r_pos r + q_len q)).
Proof.
  intros A dv a l q x st r b R Eb Pl (Q8 & Ql & Qi) (F1 & F2) W. unfold one_write. cbv zeta. unfold u32v, u16v in *.
  assert (Lr := received_length r b R Eb). assert (R0 := R). destruct R0 as (P0 & L0 & _).
  change (a_ar (logging dv) (a, l) (q_uuid q)) with (a_ar dv a (q_uuid q)).
  destruct (a_ar dv a (q_uuid q)) as [ar|].
  2:{ cbn [obind]. eexists a, l, false, _, _, r. split; [reflexivity|]. split; [exact W|]. repeat (split; [reflexivity || lia|]). left. cbn. lia. }
  change (a_api (logging dv) (a, l) (q_api q)) with (a_api dv a (q_api q)).
  destruct (negb (q_api q =? 0) && negb (a_api dv a (q_api q))).
  { cbn [obind]. eexists a, l, false, _, _, r. split; [reflexivity|]. split; [exact W|]. repeat (split; [reflexivity || lia|]). left. cbn. lia. }
  rewrite (u32_id (r_pos r + q_len q)) by lia.
  destruct (Z.leb_spec (r_pos r + q_len q) (r_len r)) as [Lq|Lq].
  2:{ cbn [obind]. eexists a, l, false, _, _, r. split; [reflexivity|]. split; [exact W|]. repeat (split; [reflexivity || lia|]). left. cbn. lia. }
  destruct (Z.leb_spec (q_index q) 32767) as [Iu|Iu].
  - destruct (rm_write_ok A dv a l ar q x (received r) (q_len q) (r_pos r) st ltac:(lia) ltac:(lia) ltac:(lia) ltac:(lia))
      as (a' & l' & ok & st' & x' & pos' & -> & HL & HP). cbn [obind].
    eexists a', l', ok, _, _, (set_pos r pos'). split; [reflexivity|]. split.
    { destruct HL as [->|(d & -> & Pd & Ld)]; [exact W|]. apply Forall_app. split; [exact W|]. constructor; [|constructor].
      split; cbn [fst snd]; [exact Pd|]. destruct (Z.leb_spec (q_index q) 32767); lia. }
    split; [reflexivity|]. split; [reflexivity|]. cbn [set_pos r_pos].
    destruct HP as [->|(-> & -> & Hc)].
    + split; [lia|]. right. right. reflexivity.
    + split; [lia|]. left. rewrite once_code by lia. cbn [x_pnio]. lia.
  - assert (Er : r_res r = POk \/ r_res r <> POk) by (destruct (r_res r); auto; right; discriminate). destruct Er as [Er|Er].
    + destruct (header_adv r b R Eb Er ltac:(lia)) as (h & ->). cbn [obind].
      change (received (set_pos r (r_pos r + 6))) with (received r). change (r_pos (set_pos r (r_pos r + 6))) with (r_pos r + 6).
      rewrite (u32_id (q_len q - 6)) by lia.
      destruct (rm_write_ok A dv a l ar q x (received r) (q_len q - 6) (r_pos r + 6) st ltac:(lia) ltac:(lia) ltac:(lia) ltac:(lia))
        as (a' & l' & ok & st' & x' & pos' & -> & HL & HP). cbn [obind].
      eexists a', l', ok, _, _, _. split; [reflexivity|]. split.
      { destruct HL as [->|(d & -> & Pd & Ld)]; [exact W|]. apply Forall_app. split; [exact W|]. constructor; [|constructor].
        split; cbn [fst snd]; [exact Pd|]. destruct (Z.leb_spec (q_index q) 32767); lia. }
      split; [reflexivity|]. split; [reflexivity|]. cbn [set_pos r_pos r_buf r_len r_be r_res].
      destruct HP as [->|(-> & -> & Hc)].
      * split; [lia|]. right. right. unfold set_pos. f_equal. lia.
      * split; [lia|]. left. rewrite once_code by lia. cbn [x_pnio]. lia.
    + destruct (safe_block_header false r R) as (h & r1 & -> & _ & S1). cbn [obind].
      destruct S1 as (Sb & Sl & _ & _ & Se). destruct (Se Er) as [Sp Sr].
      assert (Rr : received r1 = received r) by (unfold received; rewrite Sb, Sl; reflexivity). rewrite Rr, Sp.
      rewrite (u32_id (q_len q - 6)) by lia.
      destruct (rm_write_ok A dv a l ar q x (received r) (q_len q - 6) (r_pos r) st ltac:(lia) ltac:(lia) ltac:(lia) ltac:(lia))
        as (a' & l' & ok & st' & x' & pos' & -> & HL & HP). cbn [obind].
      eexists a', l', ok, _, _, _. split; [reflexivity|]. split.
      { destruct HL as [->|(d & -> & Pd & Ld)]; [exact W|]. apply Forall_app. split; [exact W|]. constructor; [|constructor].
        split; cbn [fst snd]; [exact Pd|]. destruct (Z.leb_spec (q_index q) 32767); lia. }
      cbn [set_pos r_pos r_buf r_len r_res]. split; [exact Sb|]. split; [exact Sl|]. split; [destruct HP as [->|(-> & _)]; lia|]. right. left. exact Sr.
Qed.

Lemma align4_ge : forall p, 0 <= p <= 65532 -> p <= align4 p < p + 4 /\ align4 p < 65536 /\ align4 p mod 4 = 0.
Proof.
  intros p P. unfold align4. assert (D := Z.div_mod (p + 3) 4 ltac:(lia)). assert (M := Z.mod_pos_bound (p + 3) 4 ltac:(lia)).
  rewrite u16_id by lia. rewrite Z.mod_mul by lia. lia.
Qed.

Lemma multi_ok : forall A (dv : device A) fuel a l q x st ok r b, rok r -> r_buf r = Some b -> r_len r <= 65532 -> qok q ->
  (forall q', reached q r q' -> fine q') -> Forall (handed_well (received r)) l -> r_len r - r_pos r <= Z.of_nat fuel ->
  exists a' l' ok' res r', multi fuel (logging dv) (a, l) q x st ok r = Some (Ok ((a', l'), ok', res, r')) /\
  Forall (handed_well (received r)) l'.
Proof.
  intros A dv fuel. induction fuel as [|k IH]; intros a l q x st ok r b R Eb M Q Fi W Fu; cbn [multi].
  - destruct (Z.ltb_spec (r_pos r + 58) (r_len r)); [lia|]. cbn [andb]. eexists a, l, ok, _, r. split; [reflexivity|exact W].
  - destruct ((r_pos r + 58 <? r_len r) && (p_code (x_pnio x) =? 0)) eqn:C; [|eexists a, l, ok, _, r; split; [reflexivity|exact W]].
    apply andb_true_iff in C. destruct C as [C1 C2]. apply Z.ltb_lt in C1.
    destruct (interp q st r b R Eb Q) as (ok1 & q1 & st1 & r1 & E1 & S1 & Q1 & A1). rewrite E1.
    destruct ok1; [|eexists a, l, ok, _, r1; split; [reflexivity|exact W]].
    assert (R1 := rok_step _ _ _ R S1). assert (S1' := S1). destruct S1' as (Sb & Sl & Sp & _ & _). specialize (A1 eq_refl).
    assert (Rr : received r1 = received r) by (unfold received; rewrite Sb, Sl; reflexivity).
    destruct (one_ok A dv a l q1 x st1 r1 b R1 ltac:(congruence) ltac:(lia) Q1 (Fi _ (reached_first _ _ _ _ _ _ E1)) ltac:(rewrite Rr; exact W))
      as (a2 & l2 & ok2 & st2 & x2 & r2 & -> & W2 & B2 & L2 & P2 & D2). rewrite Rr in W2.
    assert (RA := R1). destruct RA as (RA1 & RA2 & RA3).
    destruct (align4_ge (r_pos r2) ltac:(lia)) as (G1 & G2 & G3).
    set (r3 := set_pos r2 (align4 (r_pos r2))) in *.
    assert (R3 : rok r3) by (unfold rok, r3, set_pos; cbn [r_pos r_len r_buf]; rewrite B2, L2; repeat split; try lia; exact RA3).
    assert (B3 : r_buf r3 = Some b) by (cbn [r3 set_pos r_buf]; congruence).
    assert (Rr3 : received r3 = received r) by (unfold received; cbn [r3 set_pos r_buf r_len]; rewrite B2, L2, Sb, Sl; reflexivity).
    assert (X : exists a' l' ok' res r', multi k (logging dv) (a2, l2) q1 x2 stat0 ok2 r3 = Some (Ok ((a', l'), ok', res, r')) /\ Forall (handed_well (received r)) l').
    { destruct D2 as [D2|[D2|D2]].
      - destruct k; cbn [multi]; (replace (p_code (x_pnio x2) =? 0) with false by (symmetry; apply Z.eqb_neq; exact D2)); rewrite andb_false_r;
          eexists a2, l2, ok2, _, r3; (split; [reflexivity|exact W2]).
      - destruct (interp_err q1 stat0 r3 R3 D2) as (q4 & st4 & r4 & E4).
        destruct k; cbn [multi]; destruct ((r_pos r3 + 58 <? r_len r3) && (p_code (x_pnio x2) =? 0));
          rewrite ?E4; eexists a2, l2, ok2, _, _; (split; [reflexivity|exact W2]).
      - rewrite <- Rr3. apply (IH a2 l2 q1 x2 stat0 ok2 r3 b R3 B3); auto.
        + cbn [r3 set_pos r_len]. lia.
        + intros q' Hq. apply Fi. refine (reached_next _ _ _ _ _ _ _ E1 _). unfold r3 in Hq. rewrite D2 in Hq. exact Hq.
        + rewrite Rr3. exact W2.
        + cbn [r3 set_pos r_len r_pos]. lia. }
    destruct X as (a' & l' & ok' & res & r' & -> & W'). eexists a', l', ok', _, r'. split; [reflexivity|exact W'].
Qed.

(** Full claim: without the hypothesis on the requests executed.  Missing: requests with
    a length that makes the sum with the position wrap at 2^32, and requests for records
    of the stack shorter than their header (see the two theorems below). *)
Theorem C107_handed_partial : forall A (dv : device A) a args st r, rok r -> r_buf r <> None -> r_len r <= 65532 ->
  (forall q, executed r q -> fine q) ->
  exists a' l ok st' res, write_ind (Z.to_nat (r_len r)) (logging dv) (a, []) args st r = Some (Ok ((a', l), ok, st', res)) /\
  Forall (handed_well (received r)) l.
Proof.
  intros A dv a args st r R Nb M Fi. destruct (r_buf r) as [b|] eqn:Eb; [|congruence]. unfold write_ind.
  destruct (interp rwreq0 st r b R Eb qok0) as (ok1 & q1 & st1 & r1 & E1 & S1 & Q1 & A1). rewrite E1.
  destruct (is_ok (r_res r1)); [|eexists a, [], false, _, _; split; [reflexivity|constructor]].
  cbv zeta. destruct ok1; cbn [negb]; [|eexists a, [], false, _, _; split; [reflexivity|constructor]].
  assert (R1 := rok_step _ _ _ R S1). assert (S1' := S1). destruct S1' as (Sb & Sl & Sp & _ & _). specialize (A1 eq_refl).
  assert (Rr : received r1 = received r) by (unfold received; rewrite Sb, Sl; reflexivity).
  assert (Ex : forall q, (if q_index q1 =? 57408 then reached rwreq0 r1 q else q = q1) -> fine q).
  { intros q H. apply Fi. exists st, q1, st1, r1. split; [exact E1|exact H]. }
  assert (Lp : r_pos r1 <= r_len r1) by (rewrite Sl; destruct (Z.leb_spec (r_pos r) (r_len r)); [lia|];
    exfalso; revert E1; unfold write_interpret; destruct (Z.leb_spec (r_pos r + 6) (r_len r)); [lia|discriminate]).
  assert (RA := R1). destruct RA as (RA1 & _).
  destruct (q_index q1 =? 57408) eqn:Ei.
  - destruct (multi_ok A dv (Z.to_nat (r_len r)) a [] rwreq0 wresult0 stat0 true r1 b R1 ltac:(congruence) ltac:(lia) qok0 Ex (Forall_nil _) ltac:(lia))
      as (a' & l' & ok' & res & r' & -> & W'). rewrite Rr in W'.
    destruct (ok' && (r_pos r' =? r_len r')).
    + destruct (is_ok (r_res r')); [destruct (u32 (r_pos r' - r_pos r) =? args)|]; eexists a', l', _, _, _; (split; [reflexivity|exact W']).
    + eexists a', l', _, _, _; split; [reflexivity|exact W'].
  - match goal with |- context [one_write _ _ _ ?X _ _] => destruct (one_ok A dv a [] q1 X st1 r1 b R1 ltac:(congruence) Lp Q1 (Ex _ eq_refl) (Forall_nil _))
      as (a' & l' & ok' & st' & x' & r' & -> & W' & _) end. rewrite Rr in W'.
    destruct ok'.
    + destruct (is_ok (r_res r')); [destruct (u32 (r_pos r' - r_pos r) =? args)|]; eexists a', l', _, _, _; (split; [reflexivity|exact W']).
    + eexists a', l', _, _, _; split; [reflexivity|exact W'].
Qed.
Print Assumptions C107_handed_partial.

(** * Encodings of requests *)

(** Block header and request; the rest of the block is reserved. *)
Definition ewreq (be : bool) (q : rwreq) : list Z :=
  eblock be 8 (e16 be (q_seq q) ++ euuid be (q_uuid q) ++ e32 be (q_api q) ++ e16 be (q_slot q) ++ e16 be (q_subslot q) ++ [0; 0] ++
    e16 be (q_index q) ++ e32 be (q_len q) ++ repeat 0 24).

Lemma ewreq_length : forall be q, uuid_ok (q_uuid q) -> length (ewreq be q) = 64%nat.
Proof. intros be q U. unfold ewreq, eblock. rewrite !app_length, euuid_length, !e32_length, !e16_length, repeat_length by exact U. reflexivity. Qed.

Lemma dec_wreq : forall be q old, rwreq_ok q -> length old = 8%nat ->
  dec be be (get_write_request old) (e16 be (q_seq q) ++ euuid be (q_uuid q) ++ e32 be (q_api q) ++ e16 be (q_slot q) ++ e16 be (q_subslot q) ++ [0; 0] ++
    e16 be (q_index q) ++ e32 be (q_len q) ++ repeat 0 24) q.
Proof.
  intros be q old (A & U & B & C & D & E & F) L. unfold get_write_request.
  eapply dec_bind; [apply dec_u16; assumption|]. eapply dec_bind; [apply dec_uuid; assumption|].
  eapply dec_bind; [apply dec_u32; assumption|]. eapply dec_bind; [apply dec_u16; assumption|]. eapply dec_bind; [apply dec_u16; assumption|].
  eapply dec_bind; [apply (dec_skip be [0; 0])|].
  eapply dec_bind; [apply dec_u16; assumption|]. eapply dec_bind; [apply dec_u32; assumption|].
  eapply dec_last; [apply (dec_skip be (repeat 0 24))|]. destruct q; reflexivity.
Qed.

(** What is taken from an encoded request. *)
Lemma interp_enc : forall be q old st pre post len, rwreq_ok q -> length (u_d4 (q_uuid old)) = 8%nat ->
  Z.of_nat (length pre) + 64 <= len -> len <= Z.of_nat (length (pre ++ ewreq be q ++ post)) -> len < 65536 ->
  write_interpret old st (mkRd (Some (pre ++ ewreq be q ++ post)) len be POk (Z.of_nat (length pre))) =
  Ok ((true, q, st), mkRd (Some (pre ++ ewreq be q ++ post)) len be POk (Z.of_nat (length pre) + 64)).
Proof.
  intros be q old st pre post len Q O L M N. unfold write_interpret. cbn [r_pos r_len].
  destruct (Z.leb_spec (Z.of_nat (length pre) + 6) len); [|lia].
  assert (U : uuid_ok (q_uuid q)) by apply Q.
  set (body := e16 be (q_seq q) ++ euuid be (q_uuid q) ++ e32 be (q_api q) ++ e16 be (q_slot q) ++ e16 be (q_subslot q) ++ [0; 0] ++
    e16 be (q_index q) ++ e32 be (q_len q) ++ repeat 0 24).
  assert (Lb : length body = 58%nat) by (unfold body; rewrite !app_length, euuid_length, !e32_length, !e16_length, repeat_length by exact U; reflexivity).
  set (h := e16 be 8 ++ e16 be 60 ++ [1; 0]).
  assert (Lh : length h = 6%nat) by (unfold h; rewrite !app_length, !e16_length; reflexivity).
  assert (Ew : ewreq be q = h ++ body).
  { unfold ewreq, eblock. fold body. rewrite Lb. change (2 + Z.of_nat 58) with 60. unfold h. rewrite <- !app_assoc. reflexivity. }
  rewrite Ew in *. rewrite <- app_assoc in *. unfold rbind at 1.
  assert (Dh := dec_header be 8 60 1 0 ltac:(lia) ltac:(lia) pre (body ++ post) len). fold h in Dh. rewrite Dh by lia. cbn [obind r_pos r_len r_res is_ok b_length b_type].
  destruct (Z.leb_spec (Z.of_nat (length pre + length h) + 60 + 4 - 6) len); [|lia]. cbn [andb Z.eqb Pos.eqb].
  unfold rbind. replace (length pre + length h)%nat with (length (pre ++ h)) by (rewrite app_length; reflexivity).
  rewrite (app_assoc pre h). assert (Dw := dec_wreq be q (u_d4 (q_uuid old)) Q O (pre ++ h) post len). fold body in Dw.
  rewrite Dw; [|rewrite app_length; lia|rewrite <- app_assoc; exact M|exact N]. cbn [obind]. unfold rret.
  rewrite !app_length, Lh, Lb. do 3 f_equal. lia.
Qed.

(** * C107: what goes wrong *)

(** The device of the examples: one connection, which may write everything; the
    application keeps the data and accepts those that do not begin with 0. *)
Definition dv_x : device (list (list Z)) :=
  mkDev _ (fun _ u => if u_d1 u =? 1 then Some 1 else None) (fun _ _ => true) (fun _ _ => WData) (fun _ _ => false) (fun _ _ _ => false)
    (fun s _ _ d st => (s ++ [d], negb (hd 1 d =? 0), if hd 1 d =? 0 then mkStat (mkPnio 223 128 161 0) 0 0 else st)).
Definition u_x : uuid := mkUuid 1 2 3 (repeat 4 8).
Definition req_x (ix n : Z) : rwreq := mkRwreq 7 u_x 0 1 1 ix n.
Definition rd_x (l : list Z) : rd := mkRd (Some l) (Z.of_nat (length l)) true POk 0.

(** A length close to 2^32: the sum with the position wraps, the check passes and
    65535 bytes are handed over of a request of 80. *)
Theorem C107_wrap_refuted : forall fuel args,
  write_ind fuel (logging dv_x) ([], []) args stat0 (rd_x (ewreq true (req_x 100 4294967295) ++ repeat 5 16)) = Some Ub.
Proof. intros fuel args. unfold write_ind. replace (write_interpret rwreq0 stat0 (rd_x (ewreq true (req_x 100 4294967295) ++ repeat 5 16)))
    with (Ok (true, req_x 100 4294967295, stat0, mkRd (Some (ewreq true (req_x 100 4294967295) ++ repeat 5 16)) 80 true POk 64)) by (vm_compute; reflexivity).
  vm_compute. reflexivity.
Qed.
Print Assumptions C107_wrap_refuted.

(** A record of the stack (I&M1) with a length less than the header that is taken off. *)
Theorem C107_short_refuted : forall fuel args,
  write_ind fuel (logging dv_x) ([], []) args stat0 (rd_x (ewreq true (req_x 45041 2) ++ repeat 5 16)) = Some Ub.
Proof. intros fuel args. unfold write_ind. replace (write_interpret rwreq0 stat0 (rd_x (ewreq true (req_x 45041 2) ++ repeat 5 16)))
    with (Ok (true, req_x 45041 2, stat0, mkRd (Some (ewreq true (req_x 45041 2) ++ repeat 5 16)) 80 true POk 64)) by (vm_compute; reflexivity).
  vm_compute. reflexivity.
Qed.
Print Assumptions C107_short_refuted.

(** A request like these, with lengths that fit, is executed, and its data arrive. *)
Example C107_example :
  (forall q, executed (rd_x (ewreq true (req_x 100 16) ++ repeat 5 16)) q -> fine q) /\
  exists st res, write_ind 80 (logging dv_x) ([], []) 80 stat0 (rd_x (ewreq true (req_x 100 16) ++ repeat 5 16)) =
    Some (Ok (([repeat 5 16], [(req_x 100 16, repeat 5 16)]), true, st, res)).
Proof.
  split.
  - intros q (st & q0 & st' & r1 & E & H).
    assert (X := interp_enc true (req_x 100 16) rwreq0 st [] (repeat 5 16) 80).
    assert (Y : Ok (true, q0, st', r1) = Ok (true, req_x 100 16, st, mkRd (Some ([] ++ ewreq true (req_x 100 16) ++ repeat 5 16)) 80 true POk (Z.of_nat (@length Z []) + 64))).
    { rewrite <- E. rewrite <- X; [reflexivity|unfold rwreq_ok, uuid_ok; cbn; repeat split; lia|reflexivity|cbn; lia|cbn; lia|lia]. }
    injection Y as -> _ _. cbn in H. subst q. unfold fine. cbn. lia.
  - eexists _, _. vm_compute. reflexivity.
Qed.

(** * C110: multiple writes *)

(** Specification: a record of a multiple write is a request, 6 bytes of block header if
    it is a record of the stack, and the data; it is filled up to a multiple of 4. *)
Record wrec := mkWrec { e_req : rwreq; e_head : list Z; e_data : list Z }.
Definition wrec_ok (x : wrec) : Prop :=
  rwreq_ok (e_req x) /\ q_len (e_req x) = Z.of_nat (length (e_head x) + length (e_data x)) /\
  length (e_head x) = if q_index (e_req x) <=? 32767 then 0%nat else 6%nat.
Definition fill (n : nat) : nat := ((4 - n mod 4) mod 4)%nat.
Definition erec (be : bool) (x : wrec) : list Z := ewreq be (e_req x) ++ e_head x ++ e_data x.
Definition erec4 (be : bool) (x : wrec) : list Z := erec be x ++ repeat 0 (fill (length (e_head x) + length (e_data x))).
Fixpoint emulti (be : bool) (l : list wrec) : list Z := match l with [] => [] | x :: l => erec4 be x ++ emulti be l end.
(** Length without the bytes that fill up the last one. *)
Fixpoint mlen (be : bool) (l : list wrec) : nat :=
  match l with [] => 0%nat | [x] => length (erec be x) | x :: l => (length (erec4 be x) + mlen be l)%nat end.

(** Specification: the records are written one after the other, each with its own data,
    each result names its record; after the first failure nothing more is done.  A
    failure without a status gets one. *)
Definition named (q : rwreq) (st : rstat) (e : pnio) : wresult :=
  mkWres (mkRwreq (q_seq q) (q_uuid q) (q_api q) (q_slot q) (q_subslot q) (q_index q) 0) (t_add1 st) (t_add2 st) e.
Definition failure (st : rstat) : pnio := if p_code (t_pnio st) =? 0 then mkPnio 223 128 180 2 else t_pnio st.
Fixpoint in_order {A} (dv : device A) (a : A) (l : list wrec) : A * bool * list wresult :=
  match l with
  | [] => (a, true, [])
  | x :: l =>
    match a_ar dv a (q_uuid (e_req x)) with
    | None => (a, true, [])
    | Some ar =>
      let '(a', ok, st) := a_write dv a ar (e_req x) (e_data x) stat0 in
      if ok then let '(a'', ok', res) := in_order dv a' l in (a'', ok', named (e_req x) st pnio0 :: res)
      else (a', false, [named (e_req x) st (failure st)])
    end
  end.

(** The indexes that can be written. *)
Definition written_index (ix : Z) : Prop := ix <= 32767 \/ 45040 <= ix <= 45055 \/ In ix [32811; 32815; 32881].
Lemma index_handed : forall ix, written_index ix -> handed ix = true.
Proof.
  intros ix H. unfold handed, ix_im0, ix_im15. destruct H as [H|[H|[<-|[<-|[<-|[]]]]]]; try reflexivity.
  - destruct (Z.leb_spec ix 32767); [reflexivity|lia].
  - replace (45040 <=? ix) with true by (symmetry; apply Z.leb_le; lia). replace (ix <=? 45055) with true by (symmetry; apply Z.leb_le; lia). rewrite orb_true_r. reflexivity.
Qed.
(** Records which the device accepts in every state, and failures with a status that is
    no half of one. *)
Definition open {A} (dv : device A) (q : rwreq) : Prop :=
  forall a, exists ar, a_ar dv a (q_uuid q) = Some ar /\ (q_api q = 0 \/ a_api dv a (q_api q) = true) /\
  (a_state dv a ar = WStartup \/ a_state dv a ar = WData) /\ a_backup dv a ar = false /\ a_foreign dv a ar q = false.
Definition whole_status {A} (dv : device A) : Prop :=
  forall a ar q d st a' st', a_write dv a ar q d st = (a', false, st') -> p_code (t_pnio st') = 0 -> p_decode (t_pnio st') = 0.

Lemma slice_mid : forall u d v len, (length u + length d <= len)%nat ->
  slice (firstn len (u ++ d ++ v)) (Z.of_nat (length u)) (Z.of_nat (length d)) = Ok d.
Proof.
  intros u d v len L. rewrite slice_ok; rewrite ?firstn_length, ?app_length; try lia.
  rewrite !Nat2Z.id. rewrite skipn_firstn_comm. rewrite skipn_app, skipn_all, Nat.sub_diag. cbn [app skipn].
  rewrite firstn_firstn. rewrite firstn_app. rewrite firstn_all2 by lia.
  replace (Nat.min (length d) (len - length u) - length d)%nat with 0%nat by lia. cbn [firstn]. rewrite app_nil_r. reflexivity.
Qed.

Lemma one_rec : forall A (dv : device A) a x w be pre post len, wrec_ok x -> open dv (e_req x) -> whole_status dv -> handed (q_index (e_req x)) = true ->
  x_pnio w = pnio0 -> Forall byte (pre ++ (e_head x ++ e_data x) ++ post) ->
  Z.of_nat (length pre) + q_len (e_req x) <= len -> len <= Z.of_nat (length (pre ++ (e_head x ++ e_data x) ++ post)) -> len < 65536 ->
  exists ar a' ok st st', a_ar dv a (q_uuid (e_req x)) = Some ar /\ a_write dv a ar (e_req x) (e_data x) stat0 = (a', ok, st) /\
  one_write dv a (e_req x) w stat0 (mkRd (Some (pre ++ (e_head x ++ e_data x) ++ post)) len be POk (Z.of_nat (length pre))) =
  Ok (a', ok, st', named (e_req x) st (if ok then pnio0 else failure st),
      mkRd (Some (pre ++ (e_head x ++ e_data x) ++ post)) len be POk (Z.of_nat (length pre) + q_len (e_req x))).
Proof.
  intros A dv a x w be pre post len (Q & Lq & Lh) Op Ws Ha Xw By L M N. set (b := pre ++ (e_head x ++ e_data x) ++ post) in *.
  destruct (Op a) as (ar & Ear & Eapi & Est & Ebk & Efo).
  destruct (a_write dv a ar (e_req x) (e_data x) stat0) as [[a' ok] st] eqn:Ew.
  exists ar, a', ok, st. unfold one_write. cbv zeta. rewrite Ear. cbn [r_pos r_len].
  replace (negb (q_api (e_req x) =? 0) && negb (a_api dv a (q_api (e_req x)))) with false
    by (symmetry; destruct Eapi as [->| ->]; [reflexivity|rewrite andb_false_r; reflexivity]).
  assert (Qr := Q). destruct Qr as (_ & _ & _ & _ & _ & Qi & Ql).
  rewrite (u32_id (Z.of_nat (length pre) + q_len (e_req x))) by lia.
  destruct (Z.leb_spec (Z.of_nat (length pre) + q_len (e_req x)) len); [|lia].
  assert (W : forall v p n, p = Z.of_nat (length pre + length (e_head x)) -> n = Z.of_nat (length (e_data x)) ->
    cmwrr_rm_write dv a ar (e_req x) v (firstn (Z.to_nat len) b) n p stat0 =
    Ok (a', ok, st, mkWres (mkRwreq (q_seq (e_req x)) (q_uuid (e_req x)) (q_api (e_req x)) (q_slot (e_req x)) (q_subslot (e_req x)) (q_index (e_req x)) 0) (t_add1 st) (t_add2 st) (x_pnio v),
        Z.of_nat (length pre) + q_len (e_req x))).
  { intros v p n -> ->. unfold cmwrr_rm_write. cbv zeta. rewrite (u16_id (Z.of_nat (length (e_data x)))) by lia. rewrite Ebk.
    assert (X : cmwrr_write dv a ar (e_req x) (firstn (Z.to_nat len) b) (Z.of_nat (length (e_data x))) (Z.of_nat (length pre + length (e_head x))) stat0 =
      Ok (a', ok, st, Z.of_nat (length pre) + q_len (e_req x))).
    { unfold cmwrr_write. rewrite Efo, Ha. unfold b. rewrite app_assoc, app_assoc, <- (app_assoc (pre ++ e_head x)).
      rewrite <- app_length. rewrite slice_mid by (rewrite app_length; lia). cbn [obind]. rewrite Ew. rewrite u16_id by (rewrite app_length; lia).
      rewrite app_length. do 2 f_equal. lia. }
    destruct Est as [-> | ->]; rewrite X; cbn [obind]; reflexivity. }
  assert (F : forall st1, st1 = (if ok then st else set_error_once st 223 128 180 2) ->
     (if ok then mkWres (mkRwreq (q_seq (e_req x)) (q_uuid (e_req x)) (q_api (e_req x)) (q_slot (e_req x)) (q_subslot (e_req x)) (q_index (e_req x)) 0) (t_add1 st) (t_add2 st) (x_pnio w)
      else mkWres (mkRwreq (q_seq (e_req x)) (q_uuid (e_req x)) (q_api (e_req x)) (q_slot (e_req x)) (q_subslot (e_req x)) (q_index (e_req x)) 0) (t_add1 st) (t_add2 st) (t_pnio st1))
     = named (e_req x) st (if ok then pnio0 else failure st)).
  { intros st1 ->. unfold named. destruct ok; [rewrite Xw; reflexivity|]. f_equal. unfold set_error_once, failure.
    destruct (Z.eqb_spec (p_code (t_pnio st)) 0) as [E0|E0]; [|reflexivity]. rewrite (Ws _ _ _ _ _ _ _ Ew E0). reflexivity. }
  exists (if ok then st else set_error_once st 223 128 180 2). split; [reflexivity|]. split; [exact Ew|].
  destruct (Z.leb_spec (q_index (e_req x)) 32767) as [Iu|Iu].
  - change (received (mkRd (Some b) len be POk (Z.of_nat (length pre)))) with (firstn (Z.to_nat len) b).
    rewrite W by lia. cbn [obind]. rewrite <- (F _ eq_refl). destruct ok; reflexivity.
  - destruct (header_adv (mkRd (Some b) len be POk (Z.of_nat (length pre))) b) as (h & Eh); cbn [r_buf r_len r_res r_pos]; try reflexivity; try lia.
    { unfold rok. cbn [r_buf r_len r_pos]. repeat split; try lia. exact By. }
    rewrite Eh. cbn [obind set_pos r_buf r_len r_be r_res r_pos].
    change (received (mkRd (Some b) len be POk (Z.of_nat (length pre) + 6))) with (firstn (Z.to_nat len) b).
    rewrite (u32_id (q_len (e_req x) - 6)) by lia.
    rewrite W by lia. cbn [obind]. rewrite <- (F _ eq_refl). destruct ok; reflexivity.
Qed.

Lemma fill_spec : forall n, ((n + fill n) mod 4 = 0)%nat /\ (fill n < 4)%nat.
Proof.
  intros n. unfold fill. assert (D := Nat.div_mod n 4 ltac:(lia)). assert (M := Nat.mod_upper_bound n 4 ltac:(lia)).
  assert (C : (n mod 4 = 0 \/ n mod 4 = 1 \/ n mod 4 = 2 \/ n mod 4 = 3)%nat) by lia.
  destruct C as [C|[C|[C|C]]]; rewrite C in *.
  - change ((4 - 0) mod 4)%nat with 0%nat. split; [|lia]. rewrite D. rewrite Nat.add_0_r, Nat.add_0_r, Nat.mul_comm. apply Nat.mod_mul. lia.
  - change ((4 - 1) mod 4)%nat with 3%nat. split; [|lia]. rewrite D. replace (4 * (n / 4) + 1 + 3)%nat with ((n / 4 + 1) * 4)%nat by lia. apply Nat.mod_mul. lia.
  - change ((4 - 2) mod 4)%nat with 2%nat. split; [|lia]. rewrite D. replace (4 * (n / 4) + 2 + 2)%nat with ((n / 4 + 1) * 4)%nat by lia. apply Nat.mod_mul. lia.
  - change ((4 - 3) mod 4)%nat with 1%nat. split; [|lia]. rewrite D. replace (4 * (n / 4) + 3 + 1)%nat with ((n / 4 + 1) * 4)%nat by lia. apply Nat.mod_mul. lia.
Qed.

Lemma align4_fill : forall p n, (p mod 4 = 0)%nat -> Z.of_nat (p + n) <= 65532 -> align4 (Z.of_nat (p + n)) = Z.of_nat (p + n + fill n).
Proof.
  intros p n P L. destruct (fill_spec n) as [F1 F2]. destruct (align4_ge (Z.of_nat (p + n)) ltac:(lia)) as (A & B & C).
  assert (Dp := Nat.div_mod p 4 ltac:(lia)). assert (Dn := Nat.div_mod (n + fill n) 4 ltac:(lia)). assert (Da := Z.div_mod (align4 (Z.of_nat (p + n))) 4 ltac:(lia)). lia.
Qed.

Lemma erec4_length : forall be x, wrec_ok x ->
  length (erec4 be x) = (64 + (length (e_head x) + length (e_data x)) + fill (length (e_head x) + length (e_data x)))%nat /\
  length (erec be x) = (64 + (length (e_head x) + length (e_data x)))%nat.
Proof.
  intros be x (Q & _). unfold erec4, erec. assert (U : uuid_ok (q_uuid (e_req x))) by apply Q.
  rewrite !app_length, ewreq_length, repeat_length by exact U. lia.
Qed.
Lemma erec4_mod : forall be x, wrec_ok x -> (length (erec4 be x) mod 4 = 0)%nat.
Proof.
  intros be x W. destruct (erec4_length be x W) as [-> _]. destruct (fill_spec (length (e_head x) + length (e_data x))) as [F _].
  set (n := (length (e_head x) + length (e_data x))%nat) in *. rewrite <- Nat.add_assoc. rewrite <- Nat.add_mod_idemp_r, F by lia. reflexivity.
Qed.
Lemma mlen_ge : forall be l, Forall wrec_ok l -> (mlen be l <= length (emulti be l) < mlen be l + 4)%nat.
Proof.
  intros be l F. induction F as [|x l W F IH]; cbn [mlen emulti]; [cbn; lia|]. rewrite app_length.
  destruct (erec4_length be x W) as [E1 E2]. destruct (fill_spec (length (e_head x) + length (e_data x))) as [_ G].
  destruct l as [|y l]; [cbn [emulti length]; lia|]. lia.
Qed.

Lemma multi_in_order : forall A (dv : device A), whole_status dv -> forall l, Forall wrec_ok l -> Forall (fun x => open dv (e_req x)) l ->
  Forall (fun x => handed (q_index (e_req x)) = true) l ->
  forall fuel a old w ok be pre post len, (length l <= fuel)%nat -> length (u_d4 (q_uuid old)) = 8%nat -> x_pnio w = pnio0 ->
  (length pre mod 4 = 0)%nat -> Forall byte (pre ++ emulti be l ++ post) ->
  (l <> [] -> Z.of_nat (length pre + mlen be l) <= len) -> len <= Z.of_nat (length pre + length (emulti be l)) + 58 ->
  len <= Z.of_nat (length (pre ++ emulti be l ++ post)) -> len <= 65532 ->
  exists r', multi fuel dv a old w stat0 ok (mkRd (Some (pre ++ emulti be l ++ post)) len be POk (Z.of_nat (length pre))) =
    (let '(a', ok', res) := in_order dv a l in Some (Ok (a', match l with [] => ok | _ => ok' end, res, r'))) /\
    r_res r' = POk /\ r_len r' = len /\
    (snd (fst (in_order dv a l)) = true -> r_pos r' = Z.of_nat (length pre + length (emulti be l))).
Proof.
  intros A dv Ws l W. induction W as [|x l Wx W IH]; intros Op Ha fuel a old w ok be pre post len Fu O Xw Mo By L1 L2 L3 L4.
  - cbn [in_order emulti app length] in *. eexists. split; [destruct fuel; cbn [multi r_pos r_len]; (destruct (Z.ltb_spec (Z.of_nat (length pre) + 58) len); [lia|]); reflexivity|].
    cbn [r_res r_len r_pos fst snd]. split; [reflexivity|]. split; [reflexivity|]. intros _. lia.
  - apply Forall_inv in Op as Op1. apply Forall_inv_tail in Op as Op2. apply Forall_inv in Ha as Ha1. apply Forall_inv_tail in Ha as Ha2.
    destruct fuel as [|k]; [cbn [length] in Fu; lia|].
    destruct (erec4_length be x Wx) as [Le4 Le]. assert (Wx' := Wx). destruct Wx' as (Q & Lq & Lh).
    assert (U : uuid_ok (q_uuid (e_req x))) by apply Q.
    set (n := (length (e_head x) + length (e_data x))%nat) in *.
    set (b := pre ++ emulti be (x :: l) ++ post) in *.
    assert (Lm : Z.of_nat (length pre + 64 + n) <= len).
    { specialize (L1 ltac:(discriminate)). cbn [mlen] in L1. destruct l; lia. }
    set (tail := repeat 0 (fill n) ++ emulti be l ++ post).
    assert (Eb1 : b = pre ++ ewreq be (e_req x) ++ ((e_head x ++ e_data x) ++ tail)).
    { unfold b, tail. cbn [emulti]. unfold erec4, erec. fold n. rewrite <- !app_assoc. reflexivity. }
    assert (Eb2 : b = (pre ++ ewreq be (e_req x)) ++ (e_head x ++ e_data x) ++ tail) by (rewrite Eb1, (app_assoc pre); reflexivity).
    assert (Eb3 : b = (pre ++ erec4 be x) ++ emulti be l ++ post) by (unfold b; cbn [emulti]; rewrite <- !app_assoc; reflexivity).
    assert (Lp2 : length (pre ++ ewreq be (e_req x)) = (length pre + 64)%nat) by (rewrite app_length, ewreq_length by exact U; reflexivity).
    cbn [multi r_pos r_len]. destruct (Z.ltb_spec (Z.of_nat (length pre) + 58) len); [|lia]. rewrite Xw. cbn [pnio0 p_code Z.eqb andb].
    assert (Ei := interp_enc be (e_req x) old stat0 pre ((e_head x ++ e_data x) ++ tail) len Q O ltac:(lia)). rewrite <- Eb1 in Ei.
    rewrite Ei by lia. clear Ei.
    destruct (one_rec A dv a x w be (pre ++ ewreq be (e_req x)) tail len Wx Op1 Ws Ha1 Xw) as (ar & a' & ok' & st & st' & Ear & Ew & E1).
    { rewrite <- Eb2. exact By. } { rewrite Lp2. lia. } { rewrite <- Eb2. exact L3. } { lia. }
    rewrite <- Eb2, Lp2 in E1. replace (Z.of_nat (length pre) + 64) with (Z.of_nat (length pre + 64)) by lia. rewrite E1.
    cbn [in_order]. rewrite Ear, Ew. unfold set_pos. cbn [r_buf r_len r_be r_res r_pos].
    replace (Z.of_nat (length pre + 64) + q_len (e_req x)) with (Z.of_nat (length pre + 64 + n)) by lia.
    rewrite align4_fill; [|rewrite <- Nat.add_mod_idemp_r by lia; change (64 mod 4)%nat with 0%nat; rewrite Nat.add_0_r; exact Mo|lia].
    replace (length pre + 64 + n + fill n)%nat with (length (pre ++ erec4 be x)) by (rewrite app_length, Le4; lia).
    destruct ok'.
    + destruct (IH Op2 Ha2 k a' (e_req x) (named (e_req x) st pnio0) true be (pre ++ erec4 be x) post len) as (r' & Em & Er & El & Ep).
      * cbn [length] in Fu. lia.
      * apply U.
      * reflexivity.
      * rewrite app_length. assert (X := erec4_mod be x Wx). rewrite <- Nat.add_mod_idemp_l, Mo by lia. exact X.
      * rewrite <- Eb3. exact By.
      * intros Nl. rewrite app_length. specialize (L1 ltac:(discriminate)). cbn [mlen] in L1. destruct l; [congruence|lia].
      * rewrite app_length in *. cbn [emulti] in L2. rewrite app_length in L2. lia.
      * rewrite <- Eb3. exact L3.
      * exact L4.
      * rewrite <- Eb3 in Em. rewrite Em. destruct (in_order dv a' l) as [[a'' ok''] res] eqn:Eio. cbn [fst snd] in *.
        exists r'. split; [|split; [exact Er|split; [exact El|]]].
        -- destruct l; [cbn [in_order] in Eio; injection Eio as <- <- <-|]; reflexivity.
        -- intros T. rewrite (Ep T). cbn [emulti]. rewrite !app_length. lia.
    + assert (Fc : p_code (failure st) =? 0 = false).
      { unfold failure. destruct (Z.eqb_spec (p_code (t_pnio st)) 0) as [E0|E0]; [reflexivity|]. apply Z.eqb_neq. exact E0. }
      eexists. split; [destruct k; cbn [multi named x_pnio]; rewrite Fc, andb_false_r; reflexivity|].
      cbn [r_res r_len fst snd]. split; [reflexivity|]. split; [reflexivity|discriminate].
Qed.

(** Full claim: the same for every multiple write.  Missing: records which the device
    refuses (see C110_names_refuted), blocks of other types (see C110_repeat_refuted),
    applications which fail with half a status (see C110_stop_refuted). *)
Theorem C110_order_partial : forall A (dv : device A) a be pre q0 l post len args fuel,
  whole_status dv -> Forall wrec_ok l -> Forall (fun x => open dv (e_req x)) l -> Forall (fun x => written_index (q_index (e_req x))) l ->
  rwreq_ok q0 -> q_index q0 = 57408 -> (length pre mod 4 = 0)%nat -> (length l <= fuel)%nat ->
  Forall byte (pre ++ ewreq be q0 ++ emulti be l ++ post) ->
  Z.of_nat (length pre + 64 + mlen be l) <= len -> len <= Z.of_nat (length pre + 64 + length (emulti be l)) + 58 ->
  len <= Z.of_nat (length (pre ++ ewreq be q0 ++ emulti be l ++ post)) -> len <= 65532 ->
  let '(a', done, res) := in_order dv a l in
  exists ok st, write_ind fuel dv a args stat0 (mkRd (Some (pre ++ ewreq be q0 ++ emulti be l ++ post)) len be POk (Z.of_nat (length pre))) =
    Some (Ok (a', ok, st, named q0 stat0 pnio0 :: res)) /\
  (len = Z.of_nat (length pre + 64 + length (emulti be l)) -> args = len - Z.of_nat (length pre) -> ok = done /\ st = stat0).
Proof.
  intros A dv a be pre q0 l post len args fuel Ws W Op Ha0 Q I Mo Fu By L1 L2 L3 L4.
  assert (Ha : Forall (fun x => handed (q_index (e_req x)) = true) l) by (eapply Forall_impl; [|exact Ha0]; intros x Hx; exact (index_handed _ Hx)).
  destruct (in_order dv a l) as [[a' done] res] eqn:Eio. unfold write_ind.
  rewrite (interp_enc be q0 rwreq0 stat0 pre (emulti be l ++ post) len Q eq_refl) by lia.
  cbn [r_res is_ok negb]. rewrite I. cbn [Z.eqb Pos.eqb]. rewrite <- I.
  assert (U : uuid_ok (q_uuid q0)) by apply Q.
  assert (Lp : length (pre ++ ewreq be q0) = (length pre + 64)%nat) by (rewrite app_length, ewreq_length by exact U; reflexivity).
  destruct (multi_in_order A dv Ws l W Op Ha fuel a rwreq0 wresult0 true be (pre ++ ewreq be q0) post len Fu eq_refl eq_refl) as (r' & Em & Er & El & Ep).
  { rewrite Lp. rewrite <- Nat.add_mod_idemp_r by lia. change (64 mod 4)%nat with 0%nat. rewrite Nat.add_0_r. exact Mo. }
  { rewrite <- app_assoc. exact By. } { intros _. rewrite Lp. exact L1. } { rewrite Lp. exact L2. } { rewrite <- app_assoc. exact L3. } { exact L4. }
  rewrite <- app_assoc, Lp in Em. replace (Z.of_nat (length pre + 64)) with (Z.of_nat (length pre) + 64) in Em by lia. rewrite Em, Eio. rewrite Eio in Ep. cbn [fst snd] in Ep.
  rewrite Lp in Ep. cbv zeta. cbn [r_pos]. rewrite Er. cbn [is_ok].
  assert (Dn : match l with [] => true | _ :: _ => done end = done) by (destruct l; [cbn [in_order] in Eio; injection Eio as _ <- _; reflexivity|reflexivity]).
  rewrite Dn. destruct done.
  - rewrite (Ep eq_refl), El. cbn [andb].
    destruct (Z.eqb_spec (Z.of_nat (length pre + 64 + length (emulti be l))) len) as [E|E].
    + rewrite (u32_id (Z.of_nat (length pre + 64 + length (emulti be l)) - Z.of_nat (length pre))) by lia.
      destruct (Z.eqb_spec (Z.of_nat (length pre + 64 + length (emulti be l)) - Z.of_nat (length pre)) args) as [E2|E2].
      * exists true, stat0. split; [reflexivity|]. intros _ _. split; reflexivity.
      * eexists false, _. split; [reflexivity|]. intros X Y. exfalso. lia.
    + exists false, stat0. split; [reflexivity|]. intros X Y. exfalso. lia.
  - cbn [andb]. exists false, stat0. split; [reflexivity|]. intros _ _. split; reflexivity.
Qed.
Print Assumptions C110_order_partial.

(** Three records: the second fails, the third is not written. *)
Definition recs_x : list wrec :=
  [mkWrec (req_x 100 3) [] [5; 6; 7]; mkWrec (req_x 45041 8) [0; 33; 0; 4; 1; 0] [0; 9]; mkWrec (req_x 102 4) [] [8; 8; 8; 8]].
Lemma wrec_x : Forall wrec_ok recs_x.
Proof.
  constructor; [|constructor; [|constructor; [|constructor]]]; (split; [unfold rwreq_ok, uuid_ok; cbn; repeat split; lia|split; reflexivity]).
Qed.
Lemma open_x : Forall (fun x => open dv_x (e_req x)) recs_x.
Proof.
  assert (X : forall ix n, open dv_x (req_x ix n)).
  { intros ix n a. exists 1. split; [reflexivity|]. split; [left; reflexivity|]. split; [right; reflexivity|]. split; reflexivity. }
  constructor; [apply X|constructor; [apply X|constructor; [apply X|constructor]]].
Qed.
Lemma whole_x : whole_status dv_x.
Proof.
  intros a ar q d st a' st' E C. cbn in E. destruct (hd 1 d =? 0); cbn in E; [|discriminate]. injection E as _ <-. discriminate.
Qed.
Example C110_example :
  in_order dv_x [] recs_x = ([[5; 6; 7]; [0; 9]], false,
    [named (req_x 100 3) stat0 pnio0; named (req_x 45041 8) stat0 (mkPnio 223 128 161 0)]) /\
  (length (emulti true recs_x) = 68 + 72 + 68)%nat /\
  write_ind 3 dv_x [] 272 stat0 (rd_x (ewreq true (req_x 57408 208) ++ emulti true recs_x)) =
    Some (Ok ([[5; 6; 7]; [0; 9]], false, stat0,
      [named (req_x 57408 208) stat0 pnio0; named (req_x 100 3) stat0 pnio0; named (req_x 45041 8) stat0 (mkPnio 223 128 161 0)])).
Proof. split; [reflexivity|]. split; vm_compute; reflexivity. Qed.

(** A record for an unknown connection: its result carries the name of the record
    before. *)
Theorem C110_names_refuted :
  exists q, rwreq_ok q /\ q_index q = 101 /\
  exists a ok st r, write_ind 2 dv_x [] 200 stat0 (rd_x (ewreq true (req_x 57408 136) ++ emulti true [mkWrec (req_x 100 4) [] [5; 6; 7; 8]; mkWrec q [] [9; 9; 9; 9]])) =
    Some (Ok (a, ok, st, [named (req_x 57408 136) stat0 pnio0; named (req_x 100 4) stat0 pnio0; r])) /\
  p_code (x_pnio r) = 223 /\ q_index (x_req r) = 100.
Proof.
  exists (mkRwreq 8 (mkUuid 9 2 3 (repeat 4 8)) 0 1 1 101 4). split; [unfold rwreq_ok, uuid_ok; cbn; repeat split; lia|]. split; [reflexivity|].
  eexists _, _, _, _. split; [vm_compute; reflexivity|]. split; reflexivity.
Qed.
Print Assumptions C110_names_refuted.

(** A block of type 0x250 in a multiple write: the request before is executed once more, with the
    bytes that follow as data. *)
Theorem C110_repeat_refuted :
  exists a ok st res, write_ind 2 dv_x [] 200 stat0
    (rd_x (ewreq true (req_x 57408 136) ++ emulti true [mkWrec (req_x 100 4) [] [5; 6; 7; 8]] ++ eblock true 592 (repeat 1 4 ++ repeat 2 58))) =
    Some (Ok (a, ok, st, res)) /\ a = [[5; 6; 7; 8]; [1; 1; 1; 1]] /\
  map (fun r => q_index (x_req r)) res = [57408; 100; 100].
Proof. eexists _, _, _, _. split; [vm_compute; reflexivity|]. split; reflexivity. Qed.
Print Assumptions C110_repeat_refuted.

(** An application that fails with error code 0 and another decode value: the records
    after the failure are written. *)
Definition dv_y : device (list (list Z)) :=
  mkDev _ (fun _ _ => Some 1) (fun _ _ => true) (fun _ _ => WData) (fun _ _ => false) (fun _ _ _ => false)
    (fun s _ _ d st => (s ++ [d], negb (hd 1 d =? 0), if hd 1 d =? 0 then mkStat (mkPnio 0 128 161 0) 0 0 else st)).
Theorem C110_stop_refuted :
  exists a ok st res, write_ind 3 dv_y [] 272 stat0 (rd_x (ewreq true (req_x 57408 208) ++ emulti true recs_x)) = Some (Ok (a, ok, st, res)) /\
  a = [[5; 6; 7]; [0; 9]; [8; 8; 8; 8]].
Proof. eexists _, _, _, _. split; [vm_compute; reflexivity|]. reflexivity. Qed.
Print Assumptions C110_stop_refuted.
