(** Lemmas about the DCP model: reading, writing and the loops over the blocks. *)
From Coq Require Import List ZArith Arith Bool Lia.
From Verif Require Import Base CminaModel CminaSpec CminaInv DcpModel DcpSpec.
Import ListNotations.
Local Open Scope Z_scope.

(** ** Reading *)

Lemma rd8_at : forall m pre x post i, m = pre ++ x :: post -> i = Z.of_nat (length pre) ->
  rd8 m i = Ok x.
Proof.
  intros m pre x post i -> ->. unfold rd8.
  destruct (Z.ltb_spec (Z.of_nat (length pre)) 0); [lia|].
  rewrite Nat2Z.id, nth_error_app2, Nat.sub_diag by lia. reflexivity.
Qed.

Lemma rd16_at : forall m pre v post i, m = pre ++ w16 v ++ post -> i = Z.of_nat (length pre) ->
  rd16 m i = Ok v.
Proof.
  intros m pre v post i E I'. unfold rd16.
  rewrite (rd8_at m pre (v / 256) (v mod 256 :: post) i E I'). cbn [obind].
  rewrite (rd8_at m (pre ++ [v / 256]) (v mod 256) post (i + 1)).
  - cbn [obind]. f_equal. rewrite (Z.mul_comm (v / 256)). symmetry. apply Z.div_mod. lia.
  - rewrite E. rewrite <- app_assoc. reflexivity.
  - rewrite app_length. cbn [length]. lia.
Qed.

Lemma slice_at : forall m pre v post i n, m = pre ++ v ++ post -> i = Z.of_nat (length pre) ->
  n = Z.of_nat (length v) -> slice m i n = Ok v.
Proof.
  intros m pre v post i n -> -> ->. unfold slice.
  destruct (Z.ltb_spec (Z.of_nat (length pre)) 0); [lia|].
  destruct (Z.ltb_spec (Z.of_nat (length v)) 0); [lia|].
  rewrite !app_length.
  destruct (Z.ltb_spec (Z.of_nat (length pre + (length v + length post)))
                       (Z.of_nat (length pre) + Z.of_nat (length v))); [lia|].
  cbn [orb]. rewrite !Nat2Z.id. f_equal.
  rewrite skipn_app, skipn_all, Nat.sub_diag. cbn [app skipn].
  rewrite firstn_app, firstn_all, Nat.sub_diag. cbn [firstn]. apply app_nil_r.
Qed.

Lemma even_pad_even : forall l, Nat.even (length (even_pad l)) = true.
Proof.
  intros l. unfold even_pad. destruct (Nat.odd (length l)) eqn:E.
  - rewrite app_length. cbn [length]. rewrite Nat.add_1_r, Nat.even_succ. assumption.
  - rewrite <- Nat.negb_odd, E. reflexivity.
Qed.
Lemma even_pad_len : forall l,
  length (even_pad l) = (length l + if Nat.odd (length l) then 1 else 0)%nat.
Proof.
  intros l. unfold even_pad. destruct (Nat.odd (length l)); [rewrite app_length|]; cbn [length]; lia.
Qed.
Lemma even_pad_split : forall l, exists p, even_pad l = l ++ p /\ (length p <= 1)%nat /\
  length p = (if Nat.odd (length l) then 1 else 0)%nat.
Proof.
  intros l. unfold even_pad. destruct (Nat.odd (length l)).
  - exists [0]. cbn [length]. auto.
  - exists []. rewrite app_nil_r. cbn [length]. auto.
Qed.

Lemma w16_be : forall v, 0 <= v < 65536 -> be16 v = w16 v.
Proof.
  intros v H. unfold be16, w16. rewrite (Z.mod_small (v / 256)); [reflexivity|].
  split; [apply Z.div_pos; lia|apply Z.div_lt_upper_bound; lia].
Qed.
Lemma w32_be : forall v, w32_ok v -> be32 v = w32 v.
Proof.
  intros v H. unfold be32, w32. rewrite (Z.mod_small (v / 16777216)); [reflexivity|].
  unfold w32_ok in H. split; [apply Z.div_pos; lia|apply Z.div_lt_upper_bound; lia].
Qed.

Lemma even_add : forall a b, Nat.even a = true -> Nat.even b = true -> Nat.even (a + b) = true.
Proof. intros a b A B. rewrite Nat.even_add, A, B. reflexivity. Qed.

Lemma Zodd_nat : forall n, Z.odd (Z.of_nat n) = Nat.odd n.
Proof.
  intros n. rewrite <- Nat.negb_even, <- Z.negb_even. f_equal.
  destruct (Nat.Even_or_Odd n) as [H|H].
  - assert (E : Nat.even n = true) by (apply Nat.even_spec; assumption). rewrite E.
    apply Z.even_spec. destruct H as (k & ->). exists (Z.of_nat k). lia.
  - assert (E : Nat.even n = false) by (rewrite <- Nat.negb_odd; apply Nat.odd_spec in H; rewrite H; reflexivity).
    rewrite E. rewrite <- Z.negb_odd. apply negb_false_iff. apply Z.odd_spec.
    destruct H as (k & ->). exists (Z.of_nat k). lia.
Qed.

(** ** Writing *)

Lemma put1_app : forall b out, (length out + 1 <= 1474)%nat -> put1 b out = out ++ [b].
Proof.
  intros b out H. unfold put1, body_max. destruct (Nat.ltb_spec 1474 (length out + 1)); [lia|reflexivity].
Qed.
Lemma putn_app : forall l out, (length out + length l <= 1474)%nat -> putn l out = out ++ l.
Proof.
  intros l out H. unfold putn, body_max.
  destruct (Nat.ltb_spec 1474 (length out + length l)); [lia|reflexivity].
Qed.
Lemma put1_len : forall b out, (length out <= 1474)%nat ->
  (length out <= length (put1 b out) <= 1474)%nat.
Proof.
  intros b out H. unfold put1, body_max. destruct (Nat.ltb_spec 1474 (length out + 1)); [lia|].
  rewrite app_length. cbn [length]. lia.
Qed.
Lemma putn_len : forall l out, (length out <= 1474)%nat ->
  (length out <= length (putn l out) <= 1474)%nat.
Proof.
  intros b out H. unfold putn, body_max.
  destruct (Nat.ltb_spec 1474 (length out + length b)); [lia|].
  rewrite app_length. lia.
Qed.
Lemma put_block_len : forall o s i v out, (length out <= 1474)%nat ->
  (length (put_block o s i v out) <= 1474)%nat.
Proof.
  intros o s i v out H. unfold put_block. destruct (body_max <=? length out + length v)%nat; [assumption|].
  cbv zeta.
  match goal with |- context [Nat.odd (length ?x)] => assert (L : (length x <= 1474)%nat) end.
  { assert (A : forall l, (length l <= 1474)%nat ->
      (length (match v with [] => l | _ => putn v l end) <= 1474)%nat)
      by (intros l Hl; destruct v; [assumption|apply putn_len; assumption]).
    apply A. destruct i; repeat (apply put1_len); assumption. }
  match goal with |- context [Nat.odd (length ?x)] => destruct (Nat.odd (length x)) end;
    [apply put1_len|]; assumption.
Qed.

Ltac put1_in :=
  match goal with
  | |- context [put1 ?b ?o] =>
      lazymatch o with context [put1 _ _] => fail | _ => rewrite (put1_app b o) by (rewrite ?app_length; cbn [length]; lia) end
  end.

Lemma put_pos : forall o s i v out, Nat.even (length out) = true -> 0 <= i < 65536 ->
  (length out + length (pos_block o s i v) <= 1474)%nat ->
  put_block o s (Some i) v out = out ++ pos_block o s i v.
Proof.
  intros o s i v out Ev I' L. unfold pos_block in *. rewrite even_pad_len in L.
  set (c := [o; s] ++ w16 (2 + Z.of_nat (length v)) ++ w16 i ++ v) in *.
  assert (Lc : length c = (6 + length v)%nat)
    by (unfold c; rewrite !app_length; cbn [length w16]; lia).
  unfold put_block, body_max. destruct (Nat.leb_spec 1474 (length out + length v)); [lia|].
  cbv zeta.
  do 6 put1_in.
  set (h := ((((((out ++ [o]) ++ [s]) ++ _) ++ _) ++ _) ++ _)).
  assert (Lh : length h = (length out + 6)%nat) by (unfold h; rewrite !app_length; cbn [length]; lia).
  assert (Eh : (match v with [] => h | _ :: _ => putn v h end) = out ++ c).
  { assert (X : h ++ v = out ++ c).
    { unfold h, c, w16. rewrite <- !app_assoc. cbn [app].
      rewrite (Z.add_comm 2).
      assert (B : forall z, 0 <= z < 65536 -> z / 256 mod 256 = z / 256)
        by (intros z Hz; apply Z.mod_small; split; [apply Z.div_pos; lia|apply Z.div_lt_upper_bound; lia]).
      rewrite !B by lia. reflexivity. }
    destruct v as [|x v]; [rewrite <- X; apply eq_sym, app_nil_r|].
    rewrite putn_app by lia. exact X. }
  rewrite Eh. unfold even_pad. rewrite app_length, Nat.odd_add.
  replace (Nat.odd (length out)) with false by (rewrite <- Nat.negb_even, Ev; reflexivity).
  rewrite xorb_false_l. destruct (Nat.odd (length c)); [|reflexivity].
  rewrite put1_app by (rewrite app_length; lia). symmetry. apply app_assoc.
Qed.

Lemma put_neg : forall a b c out, Nat.even (length out) = true ->
  (length out + 8 <= 1474)%nat ->
  put_block o_control c_response None [a; b; c] out = out ++ neg_block a b c.
Proof.
  intros a b c out Ev L. unfold put_block, body_max. cbn [length].
  destruct (Nat.leb_spec 1474 (length out + 3)); [lia|]. cbv zeta.
  do 4 put1_in.
  rewrite putn_app by (rewrite !app_length; cbn [length]; lia).
  rewrite !app_length. cbn [length].
  replace (Nat.odd (length out + 1 + 1 + 1 + 1 + 3)) with true.
  - rewrite put1_app by (rewrite !app_length; cbn [length]; lia).
    rewrite <- !app_assoc. reflexivity.
  - rewrite <- !Nat.add_assoc, Nat.odd_add, <- Nat.negb_even, Ev. reflexivity.
Qed.

(** ** Get *)

Ltac zcase x n := let H := fresh "Hz" in destruct (Z.eqb_spec x n) as [H|H].

Lemma answer_if : forall k a opt sub,
  answer k a opt sub =
  let hello := if k_hello k then 1 else 0 in
  let ip := if some_ip (a_suite a) then 1 else 0 in
  if opt =? 1 then
    if sub =? 1 then pos_block 1 1 0 (k_mac k)
    else if sub =? 2 then pos_block 1 2 ip (suite_bytes (a_suite a))
    else if sub =? 3 then pos_block 1 3 ip (suite_bytes (a_suite a) ++ repeat 0 16)
    else neg_block opt sub 2
  else if opt =? 2 then
    if sub =? 1 then pos_block 2 1 0 (cstr (k_product k))
    else if sub =? 2 then pos_block 2 2 0 (cstr (a_name a))
    else if sub =? 3 then pos_block 2 3 0 (k_device k)
    else if sub =? 4 then pos_block 2 4 0 [1; hello]
    else if sub =? 5 then pos_block 2 5 0 supported
    else if sub =? 6 then []
    else if sub =? 7 then pos_block 2 7 0 [0; 0]
    else if sub =? 8 then pos_block 2 8 0 (k_oem k)
    else if sub =? 9 then pos_block 2 9 0 [0; 0]
    else neg_block opt sub 2
  else if opt =? 3 then neg_block opt sub 2
  else if opt =? 5 then []
  else if opt =? 6 then if sub =? 1 then pos_block 6 1 0 [0; hello] else neg_block opt sub 2
  else if opt =? 255 then []
  else neg_block opt sub 1.
Proof.
  intros k a opt sub. cbv zeta.
  assert (P : forall A (x : A) (z : Z) n, (if z =? n then x else x) = x) by (intros; destruct (_ =? _); reflexivity).
  zcase opt 1; [subst; cbn [Z.eqb Pos.eqb]; unfold answer;
    destruct sub as [|p|p]; try reflexivity;
    repeat (destruct p as [p|p|]; try reflexivity)|].
  zcase opt 2; [subst; cbn [Z.eqb Pos.eqb]; unfold answer;
    destruct sub as [|p|p]; try reflexivity;
    repeat (destruct p as [p|p|]; try reflexivity)|].
  zcase opt 3; [subst; reflexivity|].
  zcase opt 5; [subst; reflexivity|].
  zcase opt 6; [subst; cbn [Z.eqb Pos.eqb]; unfold answer;
    destruct sub as [|p|p]; try reflexivity;
    repeat (destruct p as [p|p|]; try reflexivity)|].
  zcase opt 255; [subst; reflexivity|].
  unfold answer. destruct opt as [|p|p]; try reflexivity.
  repeat (destruct p as [p|p|]; try reflexivity; try congruence).
Qed.

Lemma suite_bytes_eq : forall s, suite_ok s -> net_suite s = suite_bytes s.
Proof.
  intros s (A & B & C). unfold net_suite, suite_bytes. rewrite !w32_be by assumption. reflexivity.
Qed.
Lemma some_ip_eq : forall s,
  negb ((ip_addr s =? 0) && (ip_mask s =? 0) && (ip_gateway s =? 0)) = some_ip s.
Proof.
  intros s. unfold some_ip. destruct (ip_addr s =? 0), (ip_mask s =? 0), (ip_gateway s =? 0); reflexivity.
Qed.

Lemma get_req_app : forall k a opt sub out, dcfg_ok k -> ase_ok a ->
  Nat.even (length out) = true -> (length out + length (answer k a opt sub) <= 1474)%nat ->
  get_req k a false None opt sub out = out ++ answer k a opt sub.
Proof.
  intros k a opt sub out (K1 & K2 & K3 & K4 & K5 & K6 & K7) (A1 & A2 & A3) Ev L.
  rewrite answer_if in *. cbv zeta in *.
  unfold get_req, get_block, get_value, o_ip, o_prop, o_dhcp, o_control, o_initiative, o_all.
  unfold i_mac, i_par, i_suite, p_vendor, p_name, p_id, p_role, p_options, p_alias, p_instance, p_oem, p_gateway.
  rewrite suite_bytes_eq, some_ip_eq by assumption.
  assert (N : forall c, (length out + 8 <= 1474)%nat ->
     put_block 5 4 None [opt; sub; c] out = out ++ neg_block opt sub c)
    by (intros c Lc; apply put_neg; assumption).
  unfold o_control, c_response.
  zcase opt 1.
  { rewrite Hz in *. cbn [Z.eqb Pos.eqb] in *.
    zcase sub 1; [subst sub; cbn [Z.eqb Pos.eqb] in *|].
    { rewrite firstn_all2 by lia. apply put_pos; [assumption|lia|assumption]. }
    zcase sub 2; [subst sub; cbn [Z.eqb Pos.eqb] in *|].
    { apply put_pos; [assumption| |]; destruct (some_ip (a_suite a)); try lia; assumption. }
    zcase sub 3; [subst sub; cbn [Z.eqb Pos.eqb] in *|].
    { apply put_pos; [assumption| |]; destruct (some_ip (a_suite a)); try lia; assumption. }
    apply N. exact L. }
  zcase opt 2.
  { rewrite Hz0 in *. cbn [Z.eqb Pos.eqb] in *.
    zcase sub 1; [subst sub; cbn [Z.eqb Pos.eqb] in *; apply put_pos; [assumption|lia|assumption]|].
    zcase sub 2; [subst sub; cbn [Z.eqb Pos.eqb] in *; apply put_pos; [assumption|lia|assumption]|].
    zcase sub 3; [subst sub; cbn [Z.eqb Pos.eqb] in *|].
    { rewrite firstn_all2 by lia. apply put_pos; [assumption|lia|assumption]. }
    zcase sub 4; [subst sub; cbn [Z.eqb Pos.eqb] in *|].
    { change (firstn (1 + 1) (1 :: le16 (if k_hello k then 1 else 0)))
        with [1; (if k_hello k then 1 else 0) mod 256].
      rewrite Z.mod_small by (destruct (k_hello k); lia).
      apply put_pos; [assumption|lia|assumption]. }
    zcase sub 5; [subst sub; cbn [Z.eqb Pos.eqb] in *; apply put_pos; [assumption|lia|assumption]|].
    zcase sub 6; [subst sub; cbn [Z.eqb Pos.eqb] in *; symmetry; apply app_nil_r|].
    zcase sub 7; [subst sub; cbn [Z.eqb Pos.eqb] in *; apply put_pos; [assumption|lia|assumption]|].
    zcase sub 8; [subst sub; cbn [Z.eqb Pos.eqb] in *|].
    { rewrite firstn_all2 by lia. apply put_pos; [assumption|lia|assumption]. }
    zcase sub 9; [subst sub; cbn [Z.eqb Pos.eqb] in *; apply put_pos; [assumption|lia|assumption]|].
    apply N. exact L. }
  zcase opt 3.
  { rewrite Hz1 in *. cbn [Z.eqb Pos.eqb] in *. apply N. exact L. }
  zcase opt 5.
  { rewrite Hz2 in *. cbn [Z.eqb Pos.eqb orb] in *. symmetry. apply app_nil_r. }
  zcase opt 6.
  { rewrite Hz3 in *. cbn [Z.eqb Pos.eqb] in *.
    zcase sub 1; [subst sub; cbn [Nat.eqb Z.eqb Pos.eqb] in *|].
    { cbn [le16 firstn rev app].
      rewrite (Z.mod_small (if k_hello k then 1 else 0)) by (destruct (k_hello k); lia).
      replace ((if k_hello k then 1 else 0) / 256 mod 256) with 0 by (destruct (k_hello k); reflexivity).
      apply put_pos; [assumption|lia|assumption]. }
    apply N. exact L. }
  zcase opt 255.
  { rewrite Hz4 in *. cbn [Z.eqb Pos.eqb orb] in *. symmetry. apply app_nil_r. }
  cbn [orb]. apply N. exact L.
Qed.

Lemma get_req_len : forall k a i al o s out, (length out <= 1474)%nat ->
  (length (get_req k a i al o s out) <= 1474)%nat.
Proof.
  intros k a i al o s out H. unfold get_req.
  destruct (get_block k a i al o s) as [[[[o' s'] i'] v]|]; [apply put_block_len|]; assumption.
Qed.

Lemma answer_even : forall k a o s, Nat.even (length (answer k a o s)) = true.
Proof.
  intros k a o s. rewrite answer_if. cbv zeta. unfold pos_block.
  repeat match goal with |- context [if ?c =? ?d then _ else _] => destruct (c =? d) end;
    try apply even_pad_even; reflexivity.
Qed.

Lemma get_loop_app : forall l fuel k a m dcplen pre post out, dcfg_ok k -> ase_ok a ->
  m = pre ++ enc_get l ++ post ->
  dcplen = Z.of_nat (length pre + length (enc_get l)) -> dcplen <= 65000 ->
  (length l < fuel)%nat -> Nat.even (length out) = true ->
  (length out + length (get_answer k a l) <= 1474)%nat ->
  get_loop fuel k a m dcplen (Z.of_nat (length pre)) out = Ok (out ++ get_answer k a l).
Proof.
  induction l as [|[o s] l IH]; intros fuel k a m dcplen pre post out K A E D B F Ev L;
    (destruct fuel as [|fuel]; [cbn [length] in F; lia|]); cbn [get_loop].
  - cbn [enc_get flat_map length] in D.
    destruct (Z.leb_spec (Z.of_nat (length pre) + 2) dcplen); [lia|].
    cbn [get_answer flat_map]. rewrite app_nil_r. reflexivity.
  - cbn [enc_get flat_map fst snd app length] in D, E. fold (enc_get l) in D, E.
    destruct (Z.leb_spec (Z.of_nat (length pre) + 2) dcplen); [|lia].
    rewrite (rd8_at m pre o (s :: enc_get l ++ post)); [|assumption|reflexivity]. cbn [obind].
    rewrite (rd8_at m (pre ++ [o]) s (enc_get l ++ post));
      [|rewrite E, <- app_assoc; reflexivity|rewrite app_length; cbn [length]; lia]. cbn [obind].
    cbn [get_answer flat_map fst snd] in L |- *. fold (get_answer k a l) in L |- *.
    rewrite app_length in L.
    rewrite get_req_app by (assumption || lia).
    replace (u16 (Z.of_nat (length pre) + 2)) with (Z.of_nat (length (pre ++ [o; s])))
      by (rewrite app_length; cbn [length]; rewrite u16_id by lia; lia).
    rewrite (IH fuel k a m dcplen (pre ++ [o; s]) post); try assumption.
    + rewrite <- app_assoc. reflexivity.
    + rewrite E, <- app_assoc. reflexivity.
    + rewrite D, app_length. cbn [length]. lia.
    + cbn [length] in F. lia.
    + rewrite app_length. apply even_add; [assumption|apply answer_even].
    + rewrite app_length. lia.
Qed.

Lemma get_loop_len : forall fuel k a m d p out r, (length out <= 1474)%nat ->
  get_loop fuel k a m d p out = Ok r -> (length r <= 1474)%nat.
Proof.
  induction fuel as [|fuel IH]; intros k a m d p out r L E; [discriminate|]. cbn [get_loop] in E.
  destruct (p + 2 <=? d); [|injection E as <-; assumption].
  destruct (rd8 m p); try discriminate. cbn [obind] in E.
  destruct (rd8 m (p + 1)); try discriminate. cbn [obind] in E.
  eapply IH; [|exact E]. apply get_req_len. assumption.
Qed.
