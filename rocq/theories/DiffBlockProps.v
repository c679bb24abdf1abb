(** The module difference block (C114). *)
From Coq Require Import List ZArith Arith Bool Lia.
From Verif Require Import Base BlockModel BlockWriteProps IdentModel IdentProps DiffModel DiffProps.
Import ListNotations.
Local Open Scope Z_scope.

(** * Specification: how a controller reads the block *)

(** A list with its number of elements before it. *)
Fixpoint rlist {A} (m : reader A) (n : nat) : reader (list A) :=
  match n with
  | O => rret []
  | S n => rdo x <- m; rdo l <- rlist m n; rret (x :: l)
  end.
Definition counted {A} (m : reader A) : reader (list A) := rdo n <- get_u16; rlist m (Z.to_nat n).

(** ModuleDiffBlock (IEC 61158-6-10): subslot, ident number and state of a submodule; the
    state has the bits AddInfo 0-2, Advice 3, MaintenanceRequired 4, MaintenanceDemanded
    5, Fault 6, ARInfo 7-10, IdentInfo 11-14, FormatIndicator 15. *)
Definition bit (x p : Z) : bool := Z.odd (x / 2 ^ p).
Definition state_from (x : Z) : xstate :=
  mkXstate (x mod 8) (bit x 3) (bit x 4) (bit x 5) (bit x 6) (x / 128 mod 16) (x / 2048 mod 16) (bit x 15).
Definition get_dsub : reader dsub :=
  rdo t <- get_u16; rdo id <- get_u32; rdo st <- get_u16; rret (t, id, state_from st).
Definition get_dmod : reader dmod :=
  rdo s <- get_u16; rdo id <- get_u32; rdo st <- get_u16; rdo l <- counted get_dsub; rret (s, id, st, l).
Definition get_dapi : reader dapi := rdo a <- get_u32; rdo l <- counted get_dmod; rret (a, l).
Definition get_diff_block : reader (bhead * list dapi) := get_block (counted get_dapi).

(** What is shown of a difference: no ident number of a submodule that is not there. *)
Definition shown_sub (x : dsub) : dsub := let '(t, id, st) := x in (t, if x_ident st =? id_no then 0 else id, st).
Definition shown_mod (x : dmod) : dmod := let '(s, id, st, l) := x in (s, id, st, map shown_sub l).
Definition shown (x : dapi) : dapi := (fst x, map shown_mod (snd x)).

(** The numbers fit into their fields. *)
Definition state_ok (x : xstate) : Prop := 0 <= x_add x < 8 /\ 0 <= x_ar x < 16 /\ 0 <= x_ident x < 16.
Definition dsub_ok (x : dsub) : Prop := let '(t, id, st) := x in 0 <= t < 65536 /\ 0 <= id < 4294967296 /\ state_ok st.
Definition dmod_ok (x : dmod) : Prop :=
  let '(s, id, st, l) := x in 0 <= s < 65536 /\ 0 <= id < 4294967296 /\ 0 <= st < 65536 /\ Z.of_nat (length l) < 65536 /\ forall e, In e l -> dsub_ok e.
Definition dapi_ok (x : dapi) : Prop := 0 <= fst x < 4294967296 /\ Z.of_nat (length (snd x)) < 65536 /\ forall e, In e (snd x) -> dmod_ok e.
Definition diff_ok (l : list dapi) : Prop := Z.of_nat (length l) < 65536 /\ forall x, In x l -> dapi_ok x.
(** No module is missing. *)
Definition none_missing (l : list dapi) : Prop := forall x s id st e, In x l -> In (s, id, st, e) (snd x) -> st <> no_module.

(** The number of bytes of the block behind its header. *)
Definition sum (l : list nat) : nat := fold_right Nat.add 0%nat l.
Definition mod_size (m : dmod) : nat := let '(_, _, _, l) := m in (10 + 8 * length l)%nat.
Definition api_size (x : dapi) : nat := (6 + sum (map mod_size (snd x)))%nat.
Definition block_size (l : list dapi) : nat := (2 + sum (map api_size l))%nat.

(** * Bits of the state *)

Lemma state_bits_val : forall x, state_ok x ->
  state_bits x = x_add x + b2z (x_advice x) * 8 + b2z (x_req x) * 16 + b2z (x_dem x) * 32 + b2z (x_fault x) * 64 + x_ar x * 128 + x_ident x * 2048 + b2z (x_format x) * 32768.
Proof.
  intros x (A & B & C). unfold state_bits.
  assert (P : forall b, 0 <= b2z b <= 1) by (intros []; cbn [b2z]; lia).
  pose proof (P (x_advice x)). pose proof (P (x_req x)). pose proof (P (x_dem x)). pose proof (P (x_fault x)). pose proof (P (x_format x)).
  rewrite (put_bits_val (x_add x) 3 0 0) by lia. change (2 ^ 0) with 1.
  rewrite (put_bits_val _ 1 3) by lia. change (2 ^ 3) with 8.
  rewrite (put_bits_val _ 1 4) by lia. change (2 ^ 4) with 16.
  rewrite (put_bits_val _ 1 5) by lia. change (2 ^ 5) with 32.
  rewrite (put_bits_val _ 1 6) by lia. change (2 ^ 6) with 64.
  rewrite (put_bits_val (x_ar x) 4 7) by lia. change (2 ^ 7) with 128.
  rewrite (put_bits_val (x_ident x) 4 11) by lia. change (2 ^ 11) with 2048.
  rewrite (put_bits_val _ 1 15) by lia. change (2 ^ 15) with 32768.
  rewrite u16_id by lia. lia.
Qed.

Lemma odd_mod : forall x b, x mod 2 = b2z b -> Z.odd x = b.
Proof. intros x b H. rewrite Zmod_odd in H. destruct (Z.odd x), b; cbn [b2z] in H; try reflexivity; lia. Qed.

Lemma state_back : forall x, state_ok x -> state_from (state_bits x) = x.
Proof.
  intros x H. unfold state_from, bit. rewrite (state_bits_val x H). destruct H as (A & B & C). destruct x as [ad av rq dm fl ar id fm]. cbn [x_add x_advice x_req x_dem x_fault x_ar x_ident x_format] in *.
  assert (P : forall b, 0 <= b2z b <= 1) by (intros []; cbn [b2z]; lia).
  pose proof (P av). pose proof (P rq). pose proof (P dm). pose proof (P fl). pose proof (P fm). clear P.
  change (2 ^ 3) with 8. change (2 ^ 4) with 16. change (2 ^ 5) with 32. change (2 ^ 6) with 64. change (2 ^ 15) with 32768.
  f_equal; try (apply odd_mod).
  - Z.div_mod_to_equations; lia.
  - Z.div_mod_to_equations; lia.
  - Z.div_mod_to_equations; lia.
  - Z.div_mod_to_equations; lia.
  - Z.div_mod_to_equations; lia.
  - Z.div_mod_to_equations; lia.
  - Z.div_mod_to_equations; lia.
  - Z.div_mod_to_equations; lia.
Qed.

(** * Bytes *)

Definition esub (be : bool) (x : dsub) : list Z :=
  let '(t, id, st) := x in e16 be t ++ e32 be (if x_ident st =? id_no then 0 else id) ++ e16 be (state_bits st).
(** With the two bytes too many of a missing module. *)
Definition emod (be : bool) (x : dmod) : list Z :=
  let '(s, id, st, l) := x in
  e16 be s ++ e32 be (if st =? no_module then 0 else id) ++ e16 be st ++
  (if st =? no_module then e32 be 0 else e16 be (Z.of_nat (length l)) ++ flat_map (esub be) l).
Definition eapi (be : bool) (x : dapi) : list Z := e32 be (fst x) ++ e16 be (Z.of_nat (length (snd x))) ++ flat_map (emod be) (snd x).
Definition ediff (be : bool) (l : list dapi) : list Z := e16 be (Z.of_nat (length l)) ++ flat_map (eapi be) l.

Lemma enc_ext : forall f g bs, (forall w, f w = g w) -> enc g bs -> enc f bs.
Proof. intros f g bs H E b len pos A B C D. rewrite H. apply E; assumption. Qed.

Lemma skipn_cons : forall A (l : list A) i x, nth_error l i = Some x -> skipn i l = x :: skipn (S i) l.
Proof. exact skipn_nth. Qed.

Lemma enc_diffs : forall A (f : A -> writer) (ef : A -> list Z) arr diff n ix, (ix + n <= length diff)%nat ->
  (forall k, In k (firstn n (skipn ix diff)) -> (k < length arr)%nat) ->
  (forall e, In e (flat_map (fun k => opt (nth_error arr k)) (firstn n (skipn ix diff))) -> enc (f e) (ef e)) ->
  enc (put_diffs f arr diff n ix) (flat_map ef (flat_map (fun k => opt (nth_error arr k)) (firstn n (skipn ix diff)))).
Proof.
  intros A f ef arr diff n. induction n as [|n IH]; intros ix L P E; [exact enc_skip|].
  destruct (nth_error diff ix) as [k|] eqn:N; [|apply nth_error_None in N; lia].
  rewrite (skipn_cons _ _ _ _ N) in *. cbn [firstn flat_map] in *.
  destruct (nth_error arr k) as [e|] eqn:NA.
  2:{ apply nth_error_None in NA. specialize (P k (or_introl eq_refl)). lia. }
  cbn [opt app flat_map] in *.
  apply enc_ext with (g := f e ;; put_diffs f arr diff n (S ix)).
  - intros w. cbn [put_diffs]. unfold aget. rewrite N. cbn [obind]. rewrite NA. reflexivity.
  - apply enc_seq; [apply E; left; reflexivity|]. apply IH; [lia|intros k' I; apply P; right; exact I|intros e' I; apply E; right; exact I].
Qed.

Lemma enc_chosen : forall A (f : A -> writer) (ef : A -> list Z) arr diff nd, pointing arr diff nd ->
  (forall e, In e (chosen arr diff nd) -> enc (f e) (ef e)) -> enc (put_diffs f arr diff nd 0) (flat_map ef (chosen arr diff nd)).
Proof. intros A f ef arr diff nd (P1 & P2) E. apply (enc_diffs A f ef arr diff nd 0); [lia|exact P2|exact E]. Qed.

Lemma chosen_length : forall A (arr : list A) diff nd, pointing arr diff nd -> length (chosen arr diff nd) = nd.
Proof.
  intros A arr diff nd (P1 & P2). unfold chosen. rewrite <- (firstn_length_le diff P1) at 2. revert P2. generalize (firstn nd diff). intros l.
  induction l as [|k l IH]; intros P; [reflexivity|]. cbn [flat_map length]. rewrite app_length, IH by (intros x I; apply P; right; exact I).
  destruct (nth_error arr k) as [x|] eqn:N; [reflexivity|]. apply nth_error_None in N. specialize (P k (or_introl eq_refl)). lia.
Qed.

Lemma in_dmod : forall m l, In m l -> In (dmod_at m) (map dmod_at l).
Proof. intros. apply in_map. assumption. Qed.

Lemma enc_dsub : forall be e, dsub_ok (dsub_at e) -> enc (put_submodule_diff be e) (esub be (dsub_at e)).
Proof.
  intros be e (A & B & C). unfold put_submodule_diff, esub, dsub_at. apply enc_seq; [apply enc_u16; exact A|].
  apply enc_seq; [apply enc_u32; destruct (x_ident (xs_state e) =? id_no); lia|]. apply enc_u16. apply u16_range.
Qed.

Lemma flat_map_at : forall A B C (f : A -> B) (g : B -> list C) l, flat_map (fun x => g (f x)) l = flat_map g (map f l).
Proof. intros. symmetry. apply flat_map_map. Qed.

Lemma enc_dmod : forall be m, pointing (xm_subs m) (xm_diff m) (xm_nd m) -> dmod_ok (dmod_at m) -> enc (put_module_diff be m) (emod be (dmod_at m)).
Proof.
  intros be m P (A & B & C & D & E). unfold put_module_diff, emod, dmod_at. apply enc_seq; [apply enc_u16; exact A|].
  apply enc_seq; [apply enc_u32; destruct (xm_state m =? no_module); lia|]. apply enc_seq; [apply enc_u16; exact C|].
  destruct (xm_state m =? no_module); [apply enc_u32; lia|]. rewrite map_length in *. rewrite chosen_length in * by exact P.
  apply enc_seq; [rewrite u16_id by lia; apply enc_u16; lia|]. rewrite <- flat_map_at.
  apply enc_chosen; [exact P|]. intros e I. apply enc_dsub. apply E. apply in_map. exact I.
Qed.

Lemma enc_dapi : forall be a, pointing (xa_mods a) (xa_diff a) (xa_nd a) ->
  (forall m, In m (chosen (xa_mods a) (xa_diff a) (xa_nd a)) -> pointing (xm_subs m) (xm_diff m) (xm_nd m)) ->
  dapi_ok (dapi_at a) -> enc (put_api_diff be a) (eapi be (dapi_at a)).
Proof.
  intros be a P PM (A & B & C). unfold put_api_diff, eapi, dapi_at in *. cbn [fst snd] in *. apply enc_seq; [apply enc_u32; exact A|].
  rewrite map_length in *. rewrite chosen_length in * by exact P. apply enc_seq; [rewrite u16_id by lia; apply enc_u16; lia|].
  rewrite <- flat_map_at. apply enc_chosen; [exact P|]. intros m I. apply enc_dmod; [exact (PM m I)|]. apply C. apply in_map. exact I.
Qed.

Lemma enc_ar_diff : forall be i, pointing_all i -> diff_ok (listing i) -> listing i <> [] -> Z.of_nat (length (ediff be (listing i))) < 65534 ->
  enc (put_ar_diff be (Some i)) (eblock be bt_module_diff (ediff be (listing i))).
Proof.
  intros be i (P & PA) (A & B) N L. unfold put_ar_diff.
  assert (NL : length (listing i) = xi_nd i) by (unfold listing; rewrite map_length; apply chosen_length; exact P).
  replace (0 <? xi_nd i)%nat with true.
  2:{ symmetry. apply Nat.ltb_lt. rewrite <- NL. destruct (listing i); [contradiction|cbn [length]; lia]. }
  apply enc_block; [unfold bt_module_diff; lia|exact L|]. unfold ediff. rewrite NL in *.
  apply enc_seq; [rewrite u16_id by lia; apply enc_u16; lia|]. unfold listing. rewrite <- flat_map_at. apply enc_chosen; [exact P|].
  intros a I. destruct (PA a I) as [P1 P2]. apply enc_dapi; [exact P1|exact P2|]. apply B. unfold listing. apply in_map. exact I.
Qed.

(** * Reading back *)

Lemma dec_list : forall A B be (m : reader B) (e : A -> list Z) (v : A -> B) l, (forall x, In x l -> dec be be m (e x) (v x)) ->
  dec be be (rlist m (length l)) (flat_map e l) (map v l).
Proof.
  intros A B be m e v l. induction l as [|x l IH]; intros H; cbn [length rlist flat_map map]; [apply dec_ret|].
  eapply dec_bind; [apply H; left; reflexivity|]. eapply dec_last; [apply IH; intros y I; apply H; right; exact I|]. reflexivity.
Qed.
Lemma dec_counted : forall A B be (m : reader B) (e : A -> list Z) (v : A -> B) l, Z.of_nat (length l) < 65536 ->
  (forall x, In x l -> dec be be m (e x) (v x)) -> dec be be (counted m) (e16 be (Z.of_nat (length l)) ++ flat_map e l) (map v l).
Proof.
  intros A B be m e v l L H. unfold counted. eapply dec_bind; [apply dec_u16; lia|]. rewrite Nat2Z.id. apply dec_list. exact H.
Qed.

Lemma dec_dsub : forall be x, dsub_ok x -> dec be be get_dsub (esub be x) (shown_sub x).
Proof.
  intros be [[t id] st] (A & B & C). unfold get_dsub, esub, shown_sub. eapply dec_bind; [apply dec_u16; exact A|].
  eapply dec_bind; [apply dec_u32; destruct (x_ident st =? id_no); lia|]. eapply dec_last; [apply dec_u16; apply u16_range|].
  rewrite state_back by exact C. reflexivity.
Qed.
Lemma dec_dmod : forall be x, dmod_ok x -> snd (fst x) <> no_module -> dec be be get_dmod (emod be x) (shown_mod x).
Proof.
  intros be [[[s id] st] l] (A & B & C & D & E) N. cbn [fst snd] in N. unfold get_dmod, emod, shown_mod.
  apply Z.eqb_neq in N. rewrite N.
  eapply dec_bind; [apply dec_u16; exact A|]. eapply dec_bind; [apply dec_u32; exact B|]. eapply dec_bind; [apply dec_u16; exact C|].
  eapply dec_last; [apply dec_counted; [exact D|intros e I; apply dec_dsub; exact (E e I)]|]. reflexivity.
Qed.
Lemma dec_dapi : forall be x, dapi_ok x -> (forall m, In m (snd x) -> snd (fst m) <> no_module) -> dec be be get_dapi (eapi be x) (shown x).
Proof.
  intros be x (A & B & C) N. unfold get_dapi, eapi, shown. eapply dec_bind; [apply dec_u32; exact A|].
  eapply dec_last; [apply dec_counted; [exact B|intros m I; apply dec_dmod; [exact (C m I)|exact (N m I)]]|]. reflexivity.
Qed.

Lemma sum_map_flat : forall A (e : A -> list Z) (n : A -> nat) l, (forall x, In x l -> length (e x) = n x) -> length (flat_map e l) = sum (map n l).
Proof.
  intros A e n l H. induction l as [|x l IH]; [reflexivity|]. cbn [flat_map map sum fold_right]. rewrite app_length, H by (left; reflexivity).
  rewrite IH by (intros y I; apply H; right; exact I). reflexivity.
Qed.
Lemma esub_length : forall be x, length (esub be x) = 8%nat.
Proof. intros be [[t id] st]. unfold esub. rewrite !app_length, !e16_length, e32_length. reflexivity. Qed.
Lemma emod_length : forall be x, snd (fst x) <> no_module -> length (emod be x) = mod_size x.
Proof.
  intros be [[[s id] st] l] N. cbn [fst snd] in N. unfold emod, mod_size. apply Z.eqb_neq in N. rewrite N.
  rewrite !app_length, !e16_length, e32_length. rewrite (sum_map_flat _ (esub be) (fun _ => 8%nat)) by (intros; apply esub_length).
  induction l as [|x l IH]; [reflexivity|]. cbn [map sum fold_right length] in *. unfold sum in IH. lia.
Qed.
Lemma ediff_length : forall be l, none_missing l -> length (ediff be l) = block_size l.
Proof.
  intros be l N. unfold ediff, block_size. rewrite app_length, e16_length. f_equal. apply sum_map_flat. intros x I. unfold eapi, api_size.
  rewrite !app_length, e16_length, e32_length. cbn [Nat.add]. do 6 f_equal. apply sum_map_flat. intros m J. apply emod_length.
  destruct m as [[[s id] st] e]. cbn [fst snd]. exact (N x s id st e I J).
Qed.

(** C114: a controller reads from the block exactly the differences, if no module is
    missing.  [round_trip]: for every buffer with room, every place in it. *)
Theorem C114_block_partial : forall be i, pointing_all i -> diff_ok (listing i) -> none_missing (listing i) ->
  listing i <> [] -> Z.of_nat (block_size (listing i)) < 65534 ->
  round_trip be be (put_ar_diff be (Some i)) get_diff_block
    (mkBhead 33028 (2 + Z.of_nat (block_size (listing i))) 1 0, map shown (listing i)) (6 + block_size (listing i)).
Proof.
  intros be i P D M N L. rewrite <- (ediff_length be _ M) in *.
  replace (6 + length (ediff be (listing i)))%nat with (length (eblock be bt_module_diff (ediff be (listing i))))
    by (unfold eblock; rewrite !app_length, !e16_length; reflexivity).
  apply rt_of; [apply enc_ar_diff; assumption|]. unfold get_diff_block.
  apply dec_block; [unfold bt_module_diff; lia|exact L|]. destruct D as [D1 D2].
  apply dec_counted; [exact D1|]. intros x I. apply dec_dapi; [exact (D2 x I)|]. intros [[[s id] st] e] J. exact (M x s id st e I J).
Qed.
Print Assumptions C114_block_partial.

(** C114: without differences, or without a connection, nothing is written. *)
Theorem C114_nothing : forall be w i, put_ar_diff be None w = Ok w /\ (pointing_all i -> listing i = [] -> put_ar_diff be (Some i) w = Ok w).
Proof.
  intros be w i. split; [reflexivity|]. intros (P & _) E. unfold put_ar_diff.
  assert (NL : length (listing i) = xi_nd i) by (unfold listing; rewrite map_length; apply chosen_length; exact P).
  rewrite <- NL, E. reflexivity.
Qed.
Print Assumptions C114_nothing.

(** * No byte outside the buffer *)

Lemma inside_ext : forall f g, (forall w, f w = g w) -> stays_inside g -> stays_inside f.
Proof. intros f g H E b len pos A B C. rewrite H. apply E; assumption. Qed.
Lemma inside_diffs : forall A (f : A -> writer) arr diff n ix, (ix + n <= length diff)%nat ->
  (forall k, In k (firstn n (skipn ix diff)) -> (k < length arr)%nat) ->
  (forall e, In e (flat_map (fun k => opt (nth_error arr k)) (firstn n (skipn ix diff))) -> stays_inside (f e)) ->
  stays_inside (put_diffs f arr diff n ix).
Proof.
  intros A f arr diff n. induction n as [|n IH]; intros ix L P E; [exact inside_skip|].
  destruct (nth_error diff ix) as [k|] eqn:N; [|apply nth_error_None in N; lia].
  rewrite (skipn_cons _ _ _ _ N) in *. cbn [firstn flat_map] in *.
  destruct (nth_error arr k) as [e|] eqn:NA.
  2:{ apply nth_error_None in NA. specialize (P k (or_introl eq_refl)). lia. }
  cbn [opt app] in *.
  apply inside_ext with (g := f e ;; put_diffs f arr diff n (S ix)).
  - intros w. cbn [put_diffs]. unfold aget. rewrite N. cbn [obind]. rewrite NA. reflexivity.
  - apply inside_seq; [apply E; left; reflexivity|]. apply IH; [lia|intros k' I; apply P; right; exact I|intros e' I; apply E; right; exact I].
Qed.
Lemma inside_chosen : forall A (f : A -> writer) arr diff nd, pointing arr diff nd -> (forall e, In e (chosen arr diff nd) -> stays_inside (f e)) ->
  stays_inside (put_diffs f arr diff nd 0).
Proof. intros A f arr diff nd (P1 & P2) E. apply (inside_diffs A f arr diff nd 0); [lia|exact P2|exact E]. Qed.

(** C114: whatever the size of the buffer, no byte behind it is written. *)
Theorem C114_inside : forall be i, pointing_all i -> stays_inside (put_ar_diff be (Some i)).
Proof.
  intros be i (P & PA). unfold put_ar_diff. destruct (0 <? xi_nd i)%nat; [|exact inside_skip]. apply inside_block.
  refine (inside_seq _ _ (inside_u16 _ _) _). apply inside_chosen; [exact P|]. intros a I. destruct (PA a I) as [P1 P2]. unfold put_api_diff.
  refine (inside_seq _ _ (inside_u32 _ _) _). refine (inside_seq _ _ (inside_u16 _ _) _). apply inside_chosen; [exact P1|].
  intros m J. specialize (P2 m J). unfold put_module_diff.
  refine (inside_seq _ _ (inside_u16 _ _) _). refine (inside_seq _ _ (inside_u32 _ _) _). refine (inside_seq _ _ (inside_u16 _ _) _).
  destruct (xm_state m =? no_module); [apply inside_u32|]. refine (inside_seq _ _ (inside_u16 _ _) _). apply inside_chosen; [exact P2|].
  intros e _. unfold put_submodule_diff. refine (inside_seq _ _ (inside_u16 _ _) _). refine (inside_seq _ _ (inside_u32 _ _) _). apply inside_u16.
Qed.
Print Assumptions C114_inside.

(** * From the configuration to the controller *)

(** The numbers of a configuration. *)
Definition conf_ok (l : list capi) : Prop :=
  Z.of_nat (length l) < 65536 /\ forall x, In x l -> 0 <= fst x < 4294967296 /\ Z.of_nat (length (snd x)) < 65536 /\
    forall s id e, In (s, id, e) (snd x) -> 0 <= s < 65536 /\ 0 <= id < 4294967296 /\ Z.of_nat (length e) < 65536 /\
      forall t k, In (t, k) e -> 0 <= t < 65536 /\ 0 <= k < 4294967296.

Lemma flat_opt_length : forall A B (f : A -> option B) l, (length (flat_map (fun e => opt (f e)) l) <= length l)%nat.
Proof. intros A B f l. induction l as [|e l IH]; [apply le_n|]. cbn [flat_map]. rewrite app_length. destruct (f e); cbn [opt length]; lia. Qed.
Lemma in_flat_opt : forall A B (f : A -> option B) l y, In y (flat_map (fun e => opt (f e)) l) -> exists e, In e l /\ f e = Some y.
Proof. intros A B f l y I. apply in_flat_map in I. destruct I as (e & I & J). exists e. split; [exact I|]. destruct (f e); cbn [opt In] in J; [destruct J as [->|[]]; reflexivity|destruct J]. Qed.

Lemma told_ok : forall v, state_ok (told_as v).
Proof. intros []; unfold state_ok; cbn [told_as x_add x_ar x_ident]; unfold ar_own, ar_locked_by_ioc, id_ok, id_no, id_wrong; lia. Qed.

Lemma compare_ok : forall d me l, conf_ok l -> diff_ok (compare d me l).
Proof.
  intros d me l (L & H). unfold compare. split; [pose proof (flat_opt_length _ _ (compare_api d me) l); lia|].
  intros y I. apply in_flat_opt in I. destruct I as (x & I & E). destruct (H x I) as (H1 & H2 & H3). unfold compare_api in E.
  pose proof (flat_opt_length _ _ (compare_mod d me (fst x)) (snd x)) as FL.
  assert (FI : forall m, In m (flat_map (fun m => opt (compare_mod d me (fst x) m)) (snd x)) -> dmod_ok m).
  { intros m J. apply in_flat_opt in J. destruct J as ([[s id] e] & J & Q). destruct (H3 s id e J) as (A & B & C & F).
    assert (W : forall v t k, In (t, k) e -> dsub_ok (dsub_of (t, k) v)).
    { intros v t k K. destruct (F t k K). split; [assumption|]. split; [assumption|apply told_ok]. }
    unfold compare_mod in Q. destruct (mod_at d (fst x) s) as [id'|].
    - destruct (negb (id' =? id)).
      + injection Q as <-. split; [exact A|]. split; [exact B|]. split; [unfold substitute; lia|]. split; [rewrite map_length; exact C|].
        intros z K. apply in_map_iff in K. destruct K as ([t k] & <- & K). apply W. exact K.
      + assert (CI : forall z, In z (compare_subs d me (fst x) s e) -> dsub_ok z).
        { intros z K. unfold compare_subs in K. apply (in_flat_opt _ _ (fun e0 => option_map (dsub_of e0) (compare_sub d me (fst x) s e0))) in K.
          destruct K as ([t k] & K & KQ). destruct (compare_sub d me (fst x) s (t, k)) as [v|]; [|discriminate]. injection KQ as <-. apply W. exact K. }
        assert (CL : (length (compare_subs d me (fst x) s e) <= length e)%nat)
          by exact (flat_opt_length _ _ (fun e0 => option_map (dsub_of e0) (compare_sub d me (fst x) s e0)) e).
        destruct (compare_subs d me (fst x) s e) as [|z l']; [discriminate|]. injection Q as <-.
        split; [exact A|]. split; [exact B|]. split; [unfold proper_module; lia|]. split; [lia|exact CI].
    - injection Q as <-. split; [exact A|]. split; [exact B|]. split; [unfold no_module; lia|]. split; [cbn [length]; lia|]. intros z []. }
  destruct (flat_map (fun m => opt (compare_mod d me (fst x) m)) (snd x)) as [|m l']; [discriminate|]. injection E as <-.
  split; [exact H1|]. split; [cbn [snd]; lia|exact FI].
Qed.

(** Every expected API exists, and every expected module is in its slot. *)
Definition all_there (d : dev) (l : list capi) : Prop :=
  forall x, In x l -> In (fst x) (apis d) /\ forall s id subs, In (s, id, subs) (snd x) -> mod_at d (fst x) s = Some id.

Lemma all_there_none_missing : forall d me l, all_there d l -> none_missing (compare d me l).
Proof.
  intros d me l H x s id st e I J. unfold compare in I. apply in_flat_opt in I. destruct I as (c & I & E).
  unfold compare_api in E. assert (K : In (s, id, st, e) (flat_map (fun m => opt (compare_mod d me (fst c) m)) (snd c))).
  { destruct (flat_map (fun m => opt (compare_mod d me (fst c) m)) (snd c)); [discriminate|]. injection E as <-. exact J. }
  apply in_flat_opt in K. destruct K as ([[s' id'] subs] & K & Q). unfold compare_mod in Q. rewrite (proj2 (H c I) s' id' subs K) in Q.
  rewrite Z.eqb_refl in Q. cbn [negb] in Q. destruct (compare_subs d me (fst c) s' subs); [discriminate|]. injection Q as <- <- <- <-. discriminate.
Qed.

(** C114 with C113: for every history of the device and every configuration whose modules
    are all plugged, the block tells the controller the comparison. *)
Theorem C114_told_partial : forall na ns nt h me i be, (0 < na)%nat -> sizes na ns nt i -> conf_ok (conf i) ->
  all_there (run na ns nt h) (conf i) ->
  exists i', module_diff me (run na ns nt h) i = Ok i' /\
    let l := compare (run na ns nt h) me (conf i) in
    (l = [] -> forall w, put_ar_diff be (Some i') w = Ok w) /\
    (l <> [] -> Z.of_nat (block_size l) < 65534 ->
      round_trip be be (put_ar_diff be (Some i')) get_diff_block (mkBhead 33028 (2 + Z.of_nat (block_size l)) 1 0, map shown l) (6 + block_size l)).
Proof.
  intros na ns nt h me i be P Z C T.
  assert (F : fits (run na ns nt h) (conf i)).
  { intros x I. destruct (T x I) as [T1 T2]. split; [exact T1|]. intros s id subs J. right. exact (T2 s id subs J). }
  destruct (C113_listed_partial na ns nt h me i P Z) as (i' & E & _ & _ & PA & L). rewrite fits_seen in L by exact F.
  exists i'. split; [exact E|]. cbn zeta. rewrite <- L. split.
  - intros N w. exact (proj2 (C114_nothing be w i') PA N).
  - intros N B. apply C114_block_partial; try assumption.
    + rewrite L. apply compare_ok. exact C.
    + rewrite L. apply all_there_none_missing. exact T.
Qed.
Print Assumptions C114_told_partial.

(** C114: behind a missing module the controller reads something else: the next module
    (slot 2, ident number 51) is read as slot 0 with ident number 131072 = 2 * 65536. *)
Theorem C114_missing_module_refuted : exists na ns nt h me i i' b, sizes na ns nt i /\ module_diff me (run na ns nt h) i = Ok i' /\
  listing i' = [(0, [(1, 50, no_module, []); (2, 51, no_module, [])])] /\
  put_ar_diff true (Some i') (mkWr (Some (repeat 0 200)) 200 0) = Ok (mkWr (Some b) 200 38) /\
  exists hd r, get_diff_block (mkRd (Some b) 200 true POk 0) = Ok (hd, [(0, [(1, 0, no_module, []); (0, 131072, 0, [])])], r).
Proof.
  exists 1%nat, 2%nat, 1%nat, [], 0%nat, (expecting 1 2 1 [(0, [(1, 50, [(1, 60)]); (2, 51, [(1, 61)])])]). eexists. eexists.
  split; [apply expecting_sizes; [cbn [length]; lia|]; intros x [<-|[]]; cbn [snd length]; split; [lia|]; intros s id e [Q|[Q|[]]]; injection Q as <- <- <-; cbn [length]; lia|].
  split; [vm_compute; reflexivity|]. split; [vm_compute; reflexivity|]. split; [vm_compute; reflexivity|]. eexists. eexists. vm_compute. reflexivity.
Qed.
Print Assumptions C114_missing_module_refuted.

(** A configuration that meets the hypotheses, with four differences. *)
Definition ex_there : list capi := [(0, [(1, 50, [(1, 60); (2, 61); (3, 62); (4, 64); (5, 65)])])].
Example C114_example :
  sizes 1 2 5 (expecting 1 2 5 ex_there) /\ conf_ok ex_there /\ all_there (run 1 2 5 ex_history) ex_there /\
  length (flat_map snd (map (fun x => (fst x, flat_map snd (snd x))) (compare (run 1 2 5 ex_history) 0 ex_there))) = 4%nat.
Proof.
  split; [|split; [|split]].
  - apply expecting_sizes; [cbn [length ex_there]; lia|]. intros x [<-|[]]. cbn [snd length]. split; [lia|].
    intros s id e [Q|[]]; injection Q as <- <- <-; cbn [length]; lia.
  - split; [cbn [length ex_there]; lia|]. intros x [<-|[]]. cbn [fst snd length]. split; [lia|]. split; [lia|].
    intros s id e [Q|[]]; injection Q as <- <- <-. split; [lia|]. split; [lia|]. split; [cbn [length]; lia|].
    intros t k [Q|[Q|[Q|[Q|[Q|[]]]]]]; injection Q as <- <-; lia.
  - intros x [<-|[]]. split; [left; reflexivity|]. intros s id e [Q|[]]; injection Q as <- <- <-. reflexivity.
  - reflexivity.
Qed.
