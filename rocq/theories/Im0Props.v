(** I&M0 and I&M0FilterData (C124). *)
From Coq Require Import List ZArith Arith Bool Lia.
From Verif Require Import Base BlockModel BlockReadLemmas BlockReadProps BlockWriteProps IdentModel IdentProps DiffModel DiffProps DiffBlockProps IdentReadModel IdentReadProps
  FspmModel FspmProps RecordModel RecordReadProps ConnRspModel ConnRspProps Im0Model.
Import ListNotations.
Local Open Scope Z_scope.

(** * Specification *)

(** I&M0 (IEC 61158-6-10): vendor, order id (20 characters), serial number (16 characters), hardware
    revision, software revision (four bytes), revision counter, profile, type, version, and the
    supported records. *)
Definition get_im0 : reader (bhead * im0) :=
  rdo h <- get_block_header; rdo a <- get_byte; rdo b <- get_byte; rdo o <- get_bytes 20; rdo s <- get_bytes 16; rdo hw <- get_u16;
  rdo p <- get_byte; rdo f <- get_byte; rdo x <- get_byte; rdo i <- get_byte; rdo c <- get_u16; rdo pr <- get_u16; rdo t <- get_u16;
  rdo mj <- get_byte; rdo mn <- get_byte; rdo sup <- get_u16; rret (h, mkIm0 a b o s hw p f x i c pr t mj mn sup).
(** The configured data, with strings filled up with spaces. *)
Definition told_im0 (m : im0) : im0 :=
  mkIm0 (z_vhi m) (z_vlo m) (text 20 (z_order m)) (text 16 (z_serial m)) (z_hw m) (z_prefix m) (z_func m) (z_fix m) (z_intern m)
    (z_count m) (z_profile m) (z_type m) (z_major m) (z_minor m) (z_supported m).
Definition im0_ok (m : im0) : Prop :=
  byte (z_vhi m) /\ byte (z_vlo m) /\ terminated 20 (z_order m) /\ terminated 16 (z_serial m) /\ u16_ok (z_hw m) /\
  byte (z_prefix m) /\ byte (z_func m) /\ byte (z_fix m) /\ byte (z_intern m) /\
  u16_ok (z_count m) /\ u16_ok (z_profile m) /\ u16_ok (z_type m) /\ byte (z_major m) /\ byte (z_minor m) /\ u16_ok (z_supported m).
(** I&M0FilterData: two blocks with the submodules that carry I&M data (all, and the one that
    speaks for the device). *)
Definition get_filter : reader ((bhead * list capi) * (bhead * list capi)) := rdo x <- get_ident_block; rdo y <- get_ident_block; rret (x, y).
Definition get_headers : reader (bhead * bhead) := rdo x <- get_block_header; rdo y <- get_block_header; rret (x, y).

(** * I&M0 *)

Lemma enc_then : forall f g x y, encs 1 f x -> enc g y -> (1 <= length y)%nat -> enc (f ;; g) (x ++ y).
Proof.
  intros f g x y F G Y b len pos P L M N. unfold wseq. rewrite app_length in L.
  rewrite F by lia. cbn [obind]. rewrite G; try lia.
  - rewrite app_length. f_equal. f_equal; [|lia].
    replace (Z.to_nat (pos + Z.of_nat (length x))) with (Z.to_nat pos + length x)%nat by lia.
    rewrite put_at_app by lia. reflexivity.
  - rewrite put_at_length by lia. lia.
Qed.
Definition im0_front (be : bool) (m : im0) (rest : list Z) : list Z :=
  [z_vhi m] ++ [z_vlo m] ++ text 20 (z_order m) ++ text 16 (z_serial m) ++ e16 be (z_hw m) ++ [z_prefix m] ++ [z_func m] ++ [z_fix m] ++ [z_intern m] ++
  e16 be (z_count m) ++ e16 be (z_profile m) ++ e16 be (z_type m) ++ rest.
Definition im0_bytes (be : bool) (m : im0) : list Z := im0_front be m ([z_major m] ++ [z_minor m] ++ e16 be (z_supported m)).
Lemma front_length : forall be m rest, im0_ok m -> length (im0_front be m rest) = (50 + length rest)%nat.
Proof. intros be m rest O. unfold im0_front. rewrite !app_length, !e16_length, !text_length by apply O. reflexivity. Qed.
Lemma enc_front : forall be m g y, im0_ok m -> enc g y ->
  enc (put_byte (z_vhi m) ;; put_byte (z_vlo m) ;; put_str (before_nul (z_order m)) 21 ;; put_str (before_nul (z_serial m)) 17 ;;
    put_u16 be (z_hw m) ;; put_byte (z_prefix m) ;; put_byte (z_func m) ;; put_byte (z_fix m) ;; put_byte (z_intern m) ;;
    put_u16 be (z_count m) ;; put_u16 be (z_profile m) ;; put_u16 be (z_type m) ;; g) (im0_front be m y).
Proof.
  intros be m g y (A & B & C & D & E & F & G1 & H & I & J & K & L & M & N & O) EG. unfold im0_front, u16_ok in *.
  do 2 (apply enc_seq; [apply enc_byte; assumption|]).
  apply enc_then; [apply (encs_str (before_nul (z_order m)) 21); pose proof (terminated_le _ _ C); lia| |rewrite !app_length, !e16_length; cbn [length]; lia].
  apply enc_then; [apply (encs_str (before_nul (z_serial m)) 17); pose proof (terminated_le _ _ D); lia| |rewrite !app_length, !e16_length; cbn [length]; lia].
  apply enc_seq; [apply enc_u16; lia|]. do 4 (apply enc_seq; [apply enc_byte; assumption|]). do 3 (apply enc_seq; [apply enc_u16; lia|]). exact EG.
Qed.
Lemma enc_im0 : forall be m, im0_ok m -> enc (put_im_0 be m) (eblock be 32 (im0_bytes be m)).
Proof.
  intros be m O. unfold put_im_0. apply enc_block; [lia|unfold im0_bytes; rewrite front_length by exact O; rewrite !app_length, e16_length; cbn [length]; lia|].
  unfold im0_bytes. apply enc_front; [exact O|]. destruct O as (A & B & C & D & E & F & G1 & H & I & J & K & L & M & N & O). unfold u16_ok in *.
  do 2 (apply enc_seq; [apply enc_byte; assumption|]). apply enc_u16. lia.
Qed.
Lemma dec_im0 : forall be m, im0_ok m -> dec be be get_im0 (eblock be 32 (im0_bytes be m)) (mkBhead 32 56 1 0, told_im0 m).
Proof.
  intros be m O. assert (L0 : length (im0_bytes be m) = 54%nat) by (unfold im0_bytes; rewrite front_length by exact O; rewrite !app_length, e16_length; reflexivity).
  unfold get_im0. apply dec_one; [lia|lia|]. rewrite L0. unfold im0_bytes, im0_front. destruct O as (A & B & C & D & E & F & G1 & H & I & J & K & L & M & N & O). unfold u16_ok in *.
  do 2 (eapply dec_bind; [apply dec_byte|]). do 2 (eapply dec_bind; [apply dec_raw_n; apply text_length; assumption|]). eapply dec_bind; [apply dec_u16; lia|].
  do 4 (eapply dec_bind; [apply dec_byte|]). do 3 (eapply dec_bind; [apply dec_u16; lia|]). do 2 (eapply dec_bind; [apply dec_byte|]). eapply dec_last; [apply dec_u16; lia|]. reflexivity.
Qed.

(** C124: if there is room the answer is the configured identification, whatever slot and
    subslot is asked for; with less than 57 bytes the read is refused. *)
Theorem C124_im0_partial : forall m d api slot subslot, im0_ok m ->
  (exists f, (forall w, w_pos w + 60 <= w_len w -> read_im0 m d api slot subslot 45040 w = do x <- f w; Ok (true, x)) /\
    round_trip true true f get_im0 (mkBhead 32 56 1 0, told_im0 m) 60) /\
  (forall w, w_len w <= w_pos w + 56 -> read_im0 m d api slot subslot 45040 w = Ok (false, w)).
Proof.
  intros m d api slot subslot O. split.
  - exists (put_im_0 true m). split.
    + intros w R. unfold read_im0, im0_sizeof. cbn [Z.eqb Pos.eqb]. destruct (Z.ltb_spec (w_pos w + 56) (w_len w)); [reflexivity|lia].
    + replace 60%nat with (length (eblock true 32 (im0_bytes true m))) by (rewrite eblock_length; unfold im0_bytes; rewrite front_length by exact O; rewrite !app_length, e16_length; reflexivity).
      apply rt_of; [apply enc_im0; exact O|apply dec_im0; exact O].
  - intros w R. unfold read_im0, im0_sizeof. cbn [Z.eqb Pos.eqb]. destruct (Z.ltb_spec (w_pos w + 56) (w_len w)); [lia|reflexivity].
Qed.
Print Assumptions C124_im0_partial.

(** Finding: with 57 to 59 bytes the read succeeds although the block does not fit: its end is
    missing. *)
Theorem C124_cut_refuted : forall m d api slot subslot b len pos, im0_ok m -> 0 <= pos -> pos + 57 <= len <= pos + 59 -> len <= Z.of_nat (length b) -> len < 65534 ->
  exists b', read_im0 m d api slot subslot 45040 (mkWr (Some b) len pos) = Ok (true, mkWr (Some b') len len).
Proof.
  intros m d api slot subslot b len pos O P R L N. unfold read_im0, im0_sizeof. cbn [Z.eqb Pos.eqb w_pos w_len]. destruct (Z.ltb_spec (pos + 56) len); [|lia].
  unfold put_im_0, put_block. cbn [w_pos].
  assert (EH : enc (put_block_header true 32 0 1 0) (e16 true 32 ++ e16 true (0 + 2) ++ [1; 0])) by (apply enc_header; unfold byte; lia).
  assert (LH : length (e16 true 32 ++ e16 true (0 + 2) ++ [1; 0]) = 6%nat) by reflexivity.
  unfold wseq at 1. rewrite EH by (rewrite ?LH; lia). rewrite LH. cbn [obind]. set (b1 := put_at b (Z.to_nat pos) _).
  assert (L1 : length b1 = length b) by (apply put_at_length; rewrite LH; lia). clearbody b1.
  set (g := put_byte (z_major m) ;; put_byte (z_minor m) ;; put_u16 true (z_supported m)).
  assert (TAIL : exists b2, g (mkWr (Some (put_at b1 (Z.to_nat (pos + 6)) (im0_front true m []))) len (pos + 56)) = Ok (mkWr (Some b2) len len) /\ length b2 = length b).
  { destruct (bytes_seq _ _ 1 3 ltac:(lia) ltac:(lia) (byte_at (z_major m)) (bytes_seq _ _ 1 2 ltac:(lia) ltac:(lia) (byte_at (z_minor m)) (u16_at true (z_supported m)))
      (put_at b1 (Z.to_nat (pos + 6)) (im0_front true m [])) len (pos + 56)) as (b2 & E2 & L2); [lia|rewrite put_at_length; rewrite ?front_length by exact O; cbn [length]; lia|lia|].
    exists b2. replace (Z.min len (pos + 56 + (1 + 3))) with len in E2 by lia. split; [exact E2|]. rewrite L2. rewrite put_at_length; rewrite ?front_length by exact O; cbn [length]; lia. }
  destruct TAIL as (b2 & T & L2).
  pose proof (enc_front true m wskip [] O enc_skip b1 len (pos + 6) ltac:(lia) ltac:(rewrite front_length by exact O; cbn [length]; lia) ltac:(lia) ltac:(lia)) as F.
  rewrite front_length in F by exact O. cbn [length] in F. replace (pos + 6 + Z.of_nat (50 + 0)) with (pos + 56) in F by lia.
  match type of F with ?l = _ => match goal with |- context [wseq ?f (put_block_len true pos) ?w] =>
    assert (X : f w = do x <- l; g x) end end.
  { change (Z.of_nat 6) with 6. unfold g, wseq. clear. repeat match goal with |- obind ?o _ = obind (obind ?o _) _ => destruct o; cbn [obind]; try reflexivity end. }
  unfold wseq at 1. rewrite X, F. cbn [obind]. rewrite T. cbn [obind]. unfold put_block_len. cbn [w_buf w_len w_pos]. rewrite (u16_id (pos + 2)) by lia.
  destruct (inside_u16 true (u16 (len - (pos + 4))) b2 len (pos + 2) ltac:(lia) ltac:(lia) N) as (b3 & p3 & E3 & _). rewrite E3. cbn [obind w_buf w_len]. exists b3. reflexivity.
Qed.
Print Assumptions C124_cut_refuted.

(** * I&M0FilterData *)

Definition ex_blocks (bs : list Z) : list Z := eblock true 48 bs ++ eblock true 50 bs.
Lemma enc_filter : forall d bs, Z.of_nat (length bs) < 65534 -> enc (put_real_device_data true d SubslotOf None 0 0 1) bs -> enc (put_filter true d) (ex_blocks bs).
Proof. intros d bs L E. unfold put_filter, ex_blocks. apply enc_seq; apply enc_block; try assumption; lia. Qed.

(** C124: the filter lists the first submodule of the device access point, with the module and
    submodule that are plugged there; if none is, both blocks are empty. *)
Theorem C124_filter : forall m na ns nt h api slot subslot, (0 < na)%nat ->
  exists f, (forall w, read_im0 m (run na ns nt h) api slot subslot 63552 w = do x <- f w; Ok (true, x)) /\ stays_inside f /\
  match row_at (run na ns nt h) 0 0, sub_in (run na ns nt h) 0 0 1 with
  | Some w, Some z => let l := [(0, [(0, w_ident w, [(rs_num z, rs_ident z)])])] in conf_ok l ->
    round_trip true true f get_filter ((mkBhead 48 24 1 0, l), (mkBhead 50 24 1 0, l)) 56
  | _, _ => round_trip true true f get_headers (mkBhead 48 2 1 0, mkBhead 50 2 1 0) 12
  end.
Proof.
  intros m na ns nt h api slot subslot P. pose proof (run_ok na ns nt h P) as D. revert D. generalize (run na ns nt h). clear h. intros d D.
  exists (put_filter true d). split; [intros w; reflexivity|].
  assert (I : stays_inside (put_real_device_data true d SubslotOf None 0 0 1)) by (exact (inside_real true na ns nt d SubslotOf None 0 0 1 ltac:(discriminate))).
  split; [apply inside_seq; apply inside_block; exact I|].
  pose proof (real_body_answer na ns nt d None 0 0 1 32769 D ltac:(discriminate) (or_introl eq_refl)) as RB. unfold real_answer in RB. cbn [Z.eqb Pos.eqb] in RB.
  assert (NONE : (forall w, real_body true d (scope_of 32769) None 0 0 1 w = Ok w) -> round_trip true true (put_filter true d) get_headers (mkBhead 48 2 1 0, mkBhead 50 2 1 0) 12).
  { intros E. change 12%nat with (length (ex_blocks [])). apply rt_of.
    - apply enc_filter; [cbn [length]; lia|]. apply (enc_ext _ wskip); [intros w; exact (E w)|exact enc_skip].
    - unfold get_headers, ex_blocks, eblock. cbn [length]. eapply dec_bind; [rewrite app_nil_r; apply dec_header; lia|]. eapply dec_last; [rewrite app_nil_r; apply dec_header; lia|]. reflexivity. }
  destruct (row_at d 0 0) as [w|]; [|exact (NONE RB)]. destruct (sub_in d 0 0 1) as [z|]; [|exact (NONE RB)]. cbv zeta. intros K. specialize (RB K).
  set (l := [(0, [(0, w_ident w, [(rs_num z, rs_ident z)])])]) in *. pose proof (econf_length true l) as EL.
  change (conf_size l) with 22%nat in EL.
  replace 56%nat with (length (ex_blocks (econf true l))) by (unfold ex_blocks; rewrite app_length, !eblock_length, EL; reflexivity).
  change 24 with (2 + Z.of_nat 22). rewrite <- EL. apply rt_of; [apply enc_filter; [rewrite EL; lia|exact RB]|].
  unfold get_filter, ex_blocks. eapply dec_bind; [apply dec_block; [lia|rewrite EL; lia|apply dec_conf; exact K]|]. eapply dec_last; [apply dec_block; [lia|rewrite EL; lia|apply dec_conf; exact K]|]. reflexivity.
Qed.
Print Assumptions C124_filter.

(** C124: with any room, reading either record ends and writes inside the response only. *)
Theorem C124_inside : forall m na ns nt h api slot subslot index b len pos, (0 < na)%nat -> im0_ok m ->
  0 <= pos <= len -> len <= Z.of_nat (length b) -> len < 65534 ->
  exists ok b' p, read_im0 m (run na ns nt h) api slot subslot index (mkWr (Some b) len pos) = Ok (ok, mkWr (Some b') len p) /\
    pos <= p <= len /\ length b' = length b /\ (forall i, (i < Z.to_nat pos)%nat \/ (Z.to_nat len <= i)%nat -> nth i b' 0 = nth i b 0).
Proof.
  intros m na ns nt h api slot subslot index b len pos P O R L N.
  assert (IM : stays_inside (put_im_0 true m)).
  { destruct O as (_ & _ & T1 & T2 & _). apply terminated_le in T1, T2. unfold put_im_0. apply inside_block.
    repeat apply inside_seq; try apply inside_byte; try apply inside_u16; apply inside_str; lia. }
  destruct (C124_filter m na ns nt h api slot subslot P) as (f & F & FI & _). unfold read_im0 in *. revert F. change (63552 =? 63552) with true. cbv iota. intros F.
  destruct (Z.eqb_spec index 63552).
  - rewrite F. destruct (FI b len pos R L N) as (b' & p & E & K). rewrite E. cbn [obind]. exists true, b', p. split; [reflexivity|exact K].
  - destruct (index =? 45040); [|exists false, b, pos; split; [reflexivity|]; split; [lia|split; [reflexivity|intros; reflexivity]]].
    cbn [w_pos w_len]. destruct (pos + im0_sizeof <? len); [|exists false, b, pos; split; [reflexivity|]; split; [lia|split; [reflexivity|intros; reflexivity]]].
    destruct (IM b len pos R L N) as (b' & p & E & K). rewrite E. cbn [obind]. exists true, b', p. split; [reflexivity|exact K].
Qed.
Print Assumptions C124_inside.

(** * Findings, and an example *)

Definition ex_im0 : im0 := mkIm0 254 237 ([49; 50; 51; 52; 53] ++ repeat 0 16) ([48; 48; 48; 55] ++ repeat 0 13) 3 86 1 2 3 0 0 0 1 1 30.
Definition dap_history : list ev :=
  [PlugModule 0 0 1; PlugSub [] (fun _ => true) 0 0 1 1 1 (0, 0, 0); PlugModule 0 1 50; PlugSub [] (fun _ => true) 0 1 1 50 60 (0, 0, 0)].
Example C124_example : im0_ok ex_im0 /\ text 20 (z_order ex_im0) = [49; 50; 51; 52; 53] ++ repeat 32 15 /\
  exists w z, row_at (run 1 2 5 dap_history) 0 0 = Some w /\ sub_in (run 1 2 5 dap_history) 0 0 1 = Some z /\
    (w_ident w, rs_num z, rs_ident z) = (1, 1, 1) /\ conf_ok [(0, [(0, w_ident w, [(rs_num z, rs_ident z)])])].
Proof.
  split; [unfold im0_ok, byte, u16_ok, terminated; vm_compute; intuition discriminate|]. split; [reflexivity|].
  eexists. eexists. split; [reflexivity|]. split; [reflexivity|]. split; [reflexivity|].
  unfold conf_ok. cbn. intuition; subst; cbn in *; intuition; try lia;
    repeat match goal with
    | H : (_, _, _) = (_, _, _) |- _ => inversion H; clear H; subst; cbn in *
    | H : (_, _) = (_, _) |- _ => inversion H; clear H; subst; cbn in *
    | H : _ \/ _ |- _ => destruct H
    end; try lia; try tauto.
Qed.

(** Finding: I&M0 is answered for every submodule that is plugged (here slot 1), and even where
    nothing is plugged (slot 2); the filter lists the first submodule of the device access point
    only. *)
Theorem C124_filter_complete_refuted : exists h b1 b2 l,
  sub_in (run 1 2 5 h) 0 1 1 <> None /\ row_at (run 1 2 5 h) 0 2 = None /\
  read_im0 ex_im0 (run 1 2 5 h) 0 1 1 45040 (mkWr (Some (repeat 0 100)) 100 0) = Ok (true, mkWr (Some b1) 100 60) /\
  read_im0 ex_im0 (run 1 2 5 h) 0 2 1 45040 (mkWr (Some (repeat 0 100)) 100 0) = Ok (true, mkWr (Some b1) 100 60) /\
  read_im0 ex_im0 (run 1 2 5 h) 0 0 1 63552 (mkWr (Some (repeat 0 100)) 100 0) = Ok (true, mkWr (Some b2) 100 56) /\
  (exists r, get_filter (mkRd (Some b2) 100 true POk 0) = Ok ((mkBhead 48 24 1 0, l), (mkBhead 50 24 1 0, l), r)) /\ l = [(0, [(0, 1, [(1, 1)])])].
Proof.
  exists dap_history. eexists. eexists. eexists. split; [discriminate|]. split; [reflexivity|]. split; [vm_compute; reflexivity|]. split; [vm_compute; reflexivity|].
  split; [vm_compute; reflexivity|]. split; [eexists; vm_compute; reflexivity|reflexivity].
Qed.
Print Assumptions C124_filter_complete_refuted.
