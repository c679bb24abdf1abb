(** The loops over the blocks of Set and Identify requests, for well-formed
    requests. *)
From Coq Require Import List ZArith Arith Bool Lia.
From Verif Require Import Base CminaModel CminaSpec CminaInv DcpModel DcpSpec DcpInv.
Import ListNotations.
Local Open Scope Z_scope.

(** ** Set *)

Definition led_after (room : bool) (l : list sblock) (s : dst) : option (Z * Z) :=
  if existsb is_signal l then
    match d_led s with
    | None => if room then Some (d_now s + 500000, 5) else None
    | x => x
    end
  else d_led s.

Lemma val32_eq : forall a b c d, of_be32 [a; b; c; d] = val32 [a; b; c; d].
Proof. intros. cbn [of_be32 val32 fold_left]. lia. Qed.

Lemma ind_long_name : forall k v w q c, (241 <= length v)%nat -> (241 <= length w)%nat ->
  set_ind k (RqName v) q c = set_ind k (RqName w) q c.
Proof.
  intros k v w q c V W. unfold set_ind, set_parse, name_size.
  destruct (Nat.ltb_spec (length v) 241); [lia|].
  destruct (Nat.ltb_spec (length w) 241); [lia|]. reflexivity.
Qed.

(** One block. *)
Definition after_block (k : cfg) (room : bool) (b : sblock) (s : dst) : Z * cst * option (Z * Z) :=
  let led := led_after room [b] s in
  match asked b with
  | Some q =>
      let '(ok, e, c) := set_ind k q (b_qual b) (d_cm s) in
      ((if ok then 0 else match e with Some x => x | None => 2 end), c, led)
  | None => (other_error b, d_cm s, led)
  end.

Lemma set_req_spec : forall k room m pre post b s,
  m = pre ++ b_val b ++ post -> (16 <= length post)%nat ->
  exists qual,
  set_req k room m (b_opt b) (b_sub b) (b_qual b) (Z.of_nat (length (b_val b))) (Z.of_nat (length pre)) s =
  let '(e, c, led) := after_block k room b s in
  Ok (e, mkDst c (d_sam s) (d_samt s) (d_wait s) (d_resp s) led qual (d_now s) (d_tr s)).
Proof.
  intros k room m pre post [opt sub q v] s E P. cbn [b_opt b_sub b_qual b_val] in *.
  unfold after_block, led_after, asked, other_error, is_signal, set_req. cbn [existsb b_opt b_sub b_qual b_val].
  unfold o_ip, o_prop, o_dhcp, o_control, i_par, i_suite, p_name, c_start, c_stop, c_signal, c_factory, c_reset.
  zcase opt 1.
  { rewrite Hz. cbn [Z.eqb Pos.eqb andb orb].
    assert (X : forall n, (12 <= n <= 28)%nat -> length v = 12%nat ->
      slice m (Z.of_nat (length pre)) (Z.of_nat n) = Ok (v ++ firstn (n - 12) post)).
    { intros n Hn V. apply slice_at with (pre := pre) (post := skipn (n - 12) post).
      - rewrite E, <- app_assoc, firstn_skipn. reflexivity.
      - reflexivity.
      - rewrite app_length, firstn_length. lia. }
    zcase sub 2.
    { subst sub. cbn [Z.eqb Pos.eqb orb andb].
      destruct (Nat.eqb_spec (length v) 12) as [V|V].
      - rewrite V. cbn [Z.eqb Pos.eqb].
        change (Z.of_nat 12 =? 12) with true. cbn iota.
        change 12 with (Z.of_nat 12). rewrite X by (assumption || lia). cbn [obind].
        do 12 (destruct v as [|? v]; [discriminate|]). destruct v; [|discriminate].
        cbn [app firstn skipn]. rewrite !val32_eq.
        destruct (set_ind k _ q (d_cm s)) as [[ok e] c]. exists (d_qual s). reflexivity.
      - replace (Z.of_nat (length v) =? 12) with false by (symmetry; apply Z.eqb_neq; lia).
        exists (d_qual s). destruct s; reflexivity. }
    zcase sub 3.
    { subst sub. cbn [Z.eqb Pos.eqb orb andb].
      destruct (Nat.eqb_spec (length v) 12) as [V|V].
      - rewrite V. change (Z.of_nat 12 =? 12) with true. cbn iota.
        change 28 with (Z.of_nat 28). rewrite X by (assumption || lia). cbn [obind].
        do 12 (destruct v as [|? v]; [discriminate|]). destruct v; [|discriminate].
        cbn [app firstn skipn]. rewrite !val32_eq.
        destruct (set_ind k _ q (d_cm s)) as [[ok e] c]. exists (d_qual s). reflexivity.
      - replace (Z.of_nat (length v) =? 12) with false by (symmetry; apply Z.eqb_neq; lia).
        exists (d_qual s). destruct s; reflexivity. }
    exists (d_qual s). destruct s; reflexivity. }
  zcase opt 2.
  { rewrite Hz0. cbn [Z.eqb Pos.eqb andb orb]. zcase sub 2.
    - destruct (Z.ltb_spec (Z.of_nat (length v)) (Z.of_nat name_size)).
      + rewrite (slice_at m pre v post) by (assumption || reflexivity). cbn [obind].
        destruct (set_ind k (RqName v) q (d_cm s)) as [[ok e] c]. exists (d_qual s). reflexivity.
      + rewrite (ind_long_name k (repeat 0 name_size) v)
          by (rewrite ?repeat_length; unfold name_size in *; lia).
        destruct (set_ind k (RqName v) q (d_cm s)) as [[ok e] c]. exists (d_qual s). reflexivity.
    - exists (d_qual s). destruct s; reflexivity. }
  zcase opt 3.
  { rewrite Hz1. cbn [Z.eqb Pos.eqb andb orb]. exists (d_qual s). destruct s; reflexivity. }
  zcase opt 5.
  { rewrite Hz2. cbn [Z.eqb Pos.eqb andb orb].
    zcase sub 1; [subst; exists q; reflexivity|].
    zcase sub 2; [subst; exists (d_qual s); destruct s; reflexivity|].
    zcase sub 3.
    { subst. exists (d_qual s). cbn [Z.eqb Pos.eqb Z.leb Z.compare Pos.compare Pos.compare_cont andb orb].
      unfold trigger_led, led_half. destruct s as [? ? ? ? ? led ? ? ?]; cbn. destruct led; [reflexivity|].
      destruct room; reflexivity. }
    zcase sub 5.
    { subst. cbn [Z.eqb Pos.eqb orb andb]. destruct (set_ind k RqFactory q (d_cm s)) as [[ok e] c].
      exists (d_qual s). reflexivity. }
    zcase sub 6.
    { subst. cbn [Z.eqb Pos.eqb orb andb]. destruct (set_ind k RqReset q (d_cm s)) as [[ok e] c].
      exists (d_qual s). reflexivity. }
    destruct (Z.leb_spec 1 sub), (Z.leb_spec sub 3); cbn [andb orb]; try lia;
      exists (d_qual s); destruct s; reflexivity. }
  cbn [andb orb].
  destruct (Z.leb_spec 1 opt), (Z.leb_spec opt 3); cbn [andb orb]; try lia;
    exists (d_qual s); destruct s; reflexivity.
Qed.

Lemma enc_sblock_split : forall b, exists p,
  enc_sblock b = [b_opt b; b_sub b] ++ w16 (2 + Z.of_nat (length (b_val b))) ++ w16 (b_qual b) ++ b_val b ++ p /\
  length p = (if Nat.odd (length (b_val b)) then 1 else 0)%nat.
Proof.
  intros b. unfold enc_sblock.
  destruct (even_pad_split ([b_opt b; b_sub b] ++ w16 (2 + Z.of_nat (length (b_val b))) ++ w16 (b_qual b) ++ b_val b))
    as (p & E & _ & L).
  exists p. split; [rewrite E, <- !app_assoc; reflexivity|]. rewrite L.
  cbn [w16 app length]. cbn [Nat.odd]. rewrite !Nat.odd_succ, !Nat.even_succ, !Nat.odd_succ, !Nat.even_succ.
  reflexivity.
Qed.

Lemma pos_next : forall n v (p : list Z), Nat.even n = true ->
  length p = (if Nat.odd v then 1 else 0)%nat ->
  Z.of_nat (n + v) <= 65000 ->
  (let pos := u16 (Z.of_nat n + Z.of_nat v) in if Z.odd pos then u16 (pos + 1) else pos)
  = Z.of_nat (n + v + length p).
Proof.
  intros n v p Ev L B. cbv zeta. rewrite <- Nat2Z.inj_add. rewrite u16_id by lia. rewrite Zodd_nat.
  rewrite Nat.odd_add. replace (Nat.odd n) with false by (rewrite <- Nat.negb_even, Ev; reflexivity).
  rewrite xorb_false_l. rewrite L. destruct (Nat.odd v); [rewrite u16_id by lia; lia|lia].
Qed.

Lemma enc_sblock_even : forall b, Nat.even (length (enc_sblock b)) = true.
Proof. intros b. apply even_pad_even. Qed.

Lemma rd8_byte : forall m i x, bytes m -> rd8 m i = Ok x -> byte x.
Proof.
  intros m i x B E. unfold rd8 in E. destruct (i <? 0); [discriminate|].
  destruct (nth_error m (Z.to_nat i)) eqn:N; [|discriminate]. injection E as <-.
  apply nth_error_In in N. unfold bytes in B. rewrite Forall_forall in B. auto.
Qed.
Lemma rd8_ok : forall m i, 0 <= i < Z.of_nat (length m) -> exists x, rd8 m i = Ok x.
Proof.
  intros m i H. unfold rd8. destruct (Z.ltb_spec i 0); [lia|].
  destruct (nth_error m (Z.to_nat i)) eqn:N; [eauto|].
  apply nth_error_None in N. lia.
Qed.
Lemma rd8_skip : forall pre m i, Z.of_nat (length pre) <= i ->
  rd8 (pre ++ m) i = rd8 m (i - Z.of_nat (length pre)).
Proof.
  intros pre m i H. unfold rd8. destruct (Z.ltb_spec i 0); [lia|].
  destruct (Z.ltb_spec (i - Z.of_nat (length pre)) 0); [lia|].
  rewrite nth_error_app2 by lia. replace (Z.to_nat i - length pre)%nat with (Z.to_nat (i - Z.of_nat (length pre))) by lia.
  reflexivity.
Qed.
Lemma rd16_post : forall m pre post i, m = pre ++ post -> bytes post ->
  Z.of_nat (length pre) <= i -> i + 2 <= Z.of_nat (length m) -> exists v, rd16 m i = Ok v /\ 0 <= v.
Proof.
  intros m pre post i E B L H. subst m. rewrite app_length in H. unfold rd16. rewrite !rd8_skip by lia.
  destruct (rd8_ok post (i - Z.of_nat (length pre))) as (x & X); [lia|].
  destruct (rd8_ok post (i + 1 - Z.of_nat (length pre))) as (y & Y); [lia|].
  rewrite X, Y. cbn [obind]. exists (x * 256 + y). split; [reflexivity|].
  apply rd8_byte in X, Y; try assumption. unfold byte in *. lia.
Qed.

Lemma set_loop_spec : forall l fuel k room m dcplen pre post out s,
  m = pre ++ enc_set l ++ post -> (32 <= length post)%nat -> bytes post ->
  Nat.even (length pre) = true ->
  dcplen = Z.of_nat (length pre + length (enc_set l)) -> dcplen <= 65000 ->
  Forall sblock_ok l -> (length l < fuel)%nat ->
  Nat.even (length out) = true -> (length out + 8 * length l <= 1474)%nat ->
  exists qual,
  (do blen <- rd16 m (Z.of_nat (length pre) + 2);
   set_loop fuel k room m dcplen (Z.of_nat (length pre)) (u16 (Z.of_nat (length pre) + 4)) blen out s) =
  Ok (out ++ set_answer l (set_errors k l (d_cm s)),
      mkDst (set_blocks k (asked_all l) (d_cm s)) (d_sam s) (d_samt s) (d_wait s) (d_resp s)
            (led_after room l s) qual (d_now s) (d_tr s)).
Proof.
  induction l as [|b l IH]; intros fuel k room m dcplen pre post out s E P BP Ev D DB OKl F Eo Lo;
    (destruct fuel as [|fuel]; [cbn [length] in F; lia|]).
  - cbn [enc_set flat_map length app] in D, E.
    destruct (rd16_post m pre post (Z.of_nat (length pre) + 2) E BP) as (v & V & V0); [lia| |].
    { rewrite E, app_length. lia. }
    rewrite V. cbn [obind set_loop]. rewrite u16_id by lia.
    destruct (Z.leb_spec (Z.of_nat (length pre) + 4 + v) dcplen); [lia|].
    exists (d_qual s). cbn [set_errors set_answer combine flat_map]. rewrite app_nil_r.
    destruct s; reflexivity.
  - inversion OKl as [|? ? (Q & BV) OKl']; subst.
    destruct (enc_sblock_split b) as (p & Eb & Lp).
    set (v := b_val b) in *. set (n := length v) in *.
    cbn [enc_set flat_map] in *. fold (enc_set l) in *.
    set (m := pre ++ (enc_sblock b ++ enc_set l) ++ post) in *.
    assert (Em : m = pre ++ [b_opt b; b_sub b] ++ w16 (2 + Z.of_nat n) ++ w16 (b_qual b) ++ v ++ p ++ enc_set l ++ post).
    { unfold m. rewrite Eb. rewrite <- !app_assoc. reflexivity. }
    rewrite (rd16_at m (pre ++ [b_opt b; b_sub b]) (2 + Z.of_nat n) (w16 (b_qual b) ++ v ++ p ++ enc_set l ++ post));
      [|rewrite Em, <- !app_assoc; reflexivity|rewrite app_length; cbn [length]; lia].
    cbn [obind set_loop].
    assert (Le : length (enc_sblock b) = (6 + n + length p)%nat)
      by (rewrite Eb, !app_length; cbn [length w16]; fold n; lia).
    rewrite !app_length in *.
    rewrite (u16_id (Z.of_nat (length pre) + 4)) by lia.
    destruct (Z.leb_spec (Z.of_nat (length pre) + 4 + (2 + Z.of_nat n))
                         (Z.of_nat (length pre + (length (enc_sblock b) + length (enc_set l))))); [|lia].
    rewrite (rd16_at m (pre ++ [b_opt b; b_sub b] ++ w16 (2 + Z.of_nat n)) (b_qual b) (v ++ p ++ enc_set l ++ post));
      [|rewrite Em, <- !app_assoc; reflexivity|rewrite !app_length; cbn [length w16]; lia].
    cbn [obind].
    rewrite (rd8_at m pre (b_opt b) (b_sub b :: w16 (2 + Z.of_nat n) ++ w16 (b_qual b) ++ v ++ p ++ enc_set l ++ post));
      [|rewrite Em; reflexivity|reflexivity].
    cbn [obind].
    rewrite (rd8_at m (pre ++ [b_opt b]) (b_sub b) (w16 (2 + Z.of_nat n) ++ w16 (b_qual b) ++ v ++ p ++ enc_set l ++ post));
      [|rewrite Em, <- app_assoc; reflexivity|rewrite app_length; cbn [length]; lia].
    cbn [obind].
    replace (u16 (Z.of_nat (length pre) + 4 + 2)) with (Z.of_nat (length pre + 6)) by (rewrite u16_id by lia; lia).
    replace (u16 (2 + Z.of_nat n - 2)) with (Z.of_nat n) by (rewrite u16_id by lia; lia).
    destruct (set_req_spec k room m (pre ++ [b_opt b; b_sub b] ++ w16 (2 + Z.of_nat n) ++ w16 (b_qual b))
                (p ++ enc_set l ++ post) b s) as (qual & R).
    { rewrite Em, <- !app_assoc. reflexivity. }
    { rewrite !app_length. lia. }
    fold v in R. fold n in R.
    replace (length (pre ++ [b_opt b; b_sub b] ++ w16 (2 + Z.of_nat n) ++ w16 (b_qual b)))
      with (length pre + 6)%nat in R by (rewrite !app_length; cbn [length w16]; lia).
    rewrite R. clear R.
    destruct (after_block k room b s) as [[e c] led] eqn:AB. cbn [obind].
    assert (Epos := pos_next (length pre + 6) n p). cbv zeta in Epos |- *.
    rewrite Epos; [|rewrite Nat.even_add, Ev; reflexivity|exact Lp|lia].
    cbn [length] in Lo.
    rewrite put_neg by (assumption || lia).
    set (s' := mkDst c (d_sam s) (d_samt s) (d_wait s) (d_resp s) led qual (d_now s) (d_tr s)).
    destruct (IH fuel k room m (Z.of_nat (length pre + (length (enc_sblock b) + length (enc_set l))))
                (pre ++ enc_sblock b) post (out ++ neg_block (b_opt b) (b_sub b) e) s') as (q' & R); try assumption.
    { unfold m. rewrite <- !app_assoc. reflexivity. }
    { rewrite app_length. apply even_add; [assumption|apply enc_sblock_even]. }
    { rewrite app_length. lia. }
    { cbn [length] in F. lia. }
    { rewrite app_length. apply even_add; [assumption|reflexivity]. }
    { rewrite app_length. cbn [length neg_block]. lia. }
    replace (Z.of_nat (length pre + 6 + n + length p)) with (Z.of_nat (length (pre ++ enc_sblock b)))
      by (rewrite app_length; lia).
    exists q'. rewrite R. unfold s'. cbn [d_cm d_sam d_samt d_wait d_resp d_led d_now d_tr].
    unfold after_block in AB. cbn [set_errors asked_all]. fold v.
    assert (LED : led_after room l s' = led_after room (b :: l) s /\ True).
    { split; [|exact Logic.I]. unfold s', led_after. cbn [d_led d_now existsb].
      assert (led = led_after room [b] s).
      { destruct (asked b); [destruct (set_ind _ _ _ _) as [[? ?] ?]|]; injection AB as _ _ <-; reflexivity. }
      subst led. unfold led_after. cbn [existsb].
      destruct (is_signal b); cbn [orb].
      - destruct (existsb is_signal l), (d_led s), room; reflexivity.
      - reflexivity. }
    destruct LED as [LED _]. unfold s' in LED. cbn [d_led] in LED. rewrite LED.
    destruct (asked b) as [r|].
    + cbn [set_blocks]. destruct (set_ind k r (b_qual b) (d_cm s)) as [[ok e'] c'] eqn:SI.
      injection AB as <- <- _. cbn [snd]. f_equal. f_equal.
      rewrite <- app_assoc. reflexivity.
    + injection AB as <- <- _. f_equal. f_equal. rewrite <- app_assoc. reflexivity.
Qed.

(** ** Identify *)

Lemma memeq_spec : forall v w post, (length v <= length w + length post)%nat ->
  exists e, memeq v (w ++ post) (length v) = Ok e /\
    (e && (Z.of_nat (length w) =? Z.of_nat (length v)) = true <-> w = v).
Proof.
  induction v as [|x v IH]; intros w post L.
  - exists true. split; [reflexivity|]. cbn [length]. destruct w; cbn [length].
    + split; reflexivity.
    + split; [|discriminate]. intros H. apply andb_prop in H as [_ H]. apply Z.eqb_eq in H. lia.
  - cbn [length memeq]. destruct w as [|y w].
    + destruct post as [|z post]; [cbn [length] in L; lia|]. cbn [app].
      destruct (x =? z).
      * destruct (IH [] post) as (e & E & _); [cbn [length] in *; lia|]. cbn [app] in E. rewrite E.
        exists e. split; [reflexivity|]. cbn [length]. split; [|discriminate].
        intros H. apply andb_prop in H as [_ H]. apply Z.eqb_eq in H. lia.
      * exists false. split; [reflexivity|]. split; discriminate.
    + cbn [app]. zcase x y.
      * subst y. destruct (IH w post) as (e & E & S'); [cbn [length] in L; lia|]. exists e. split; [assumption|].
        cbn [length]. replace (Z.of_nat (S (length w)) =? Z.of_nat (S (length v)))
          with (Z.of_nat (length w) =? Z.of_nat (length v))
          by (destruct (Z.eqb_spec (Z.of_nat (length w)) (Z.of_nat (length v)));
              symmetry; [apply Z.eqb_eq|apply Z.eqb_neq]; lia).
        rewrite S'. split; congruence.
      * exists false. split; [reflexivity|]. split; [discriminate|]. congruence.
Qed.

Lemma cstr_split : forall a, In 0 a -> exists r, a = cstr a ++ 0 :: r /\ ~ In 0 (cstr a).
Proof.
  induction a as [|c a IH]; intros H; [destruct H|]. cbn [cstr]. zcase c 0.
  - subst. exists a. split; [reflexivity|intros []].
  - destruct H as [H|H]; [congruence|]. destruct (IH H) as (r & E & N). exists r.
    split; [cbn [app]; congruence|]. intros [K|K]; [congruence|auto].
Qed.

Lemma memeq_name : forall nm r w post, ~ In 0 nm -> ~ In 0 w ->
  exists e, memeq (nm ++ 0 :: r) (w ++ post) (length w) = Ok e /\
    (e = true -> exists t, nm = w ++ t) /\ (w = nm -> e = true).
Proof.
  induction nm as [|x nm IH]; intros r w post N W.
  - destruct w as [|y w].
    + exists true. split; [reflexivity|]. split; [exists []; reflexivity|reflexivity].
    + cbn [length app memeq]. zcase 0 y; [exfalso; apply W; left; auto|].
      exists false. split; [reflexivity|]. split; discriminate.
  - destruct w as [|y w].
    + exists true. split; [reflexivity|]. split; [exists (x :: nm); reflexivity|reflexivity].
    + cbn [length app memeq]. zcase x y.
      * subst y. destruct (IH r w post) as (e & E & A & B).
        { intros K. apply N. right; assumption. }
        { intros K. apply W. right; assumption. }
        exists e. split; [assumption|]. split.
        -- intros He. destruct (A He) as (t & ->). exists t. reflexivity.
        -- intros H. injection H as H. apply B. assumption.
      * exists false. split; [reflexivity|]. split; [discriminate|]. congruence.
Qed.

Definition names_ok (names : list (list Z)) : Prop := Forall (fun n => (length n < 256)%nat) names.

Lemma existsb_in : forall v names, existsb (list_eqb v) names = true <-> In v names.
Proof.
  intros v names. rewrite existsb_exists. unfold list_eqb. split.
  - intros (x & I' & E). destruct (list_eq_dec Z.eq_dec v x); [subst; assumption|discriminate].
  - intros H. exists v. split; [assumption|]. destruct (list_eq_dec Z.eq_dec v v); congruence.
Qed.

Definition alias_after (first : bool) (b : iblock) (alias : option (list Z)) : option (list Z) :=
  if first && ((i_opt b =? 2) && (i_sub b =? 6)) then Some (i_val b) else alias.
Definition is_name_block (b : iblock) : bool := (i_opt b =? 2) && ((i_sub b =? 2) || (i_sub b =? 6)).

(** One filter. *)
Lemma filter_block_spec : forall k a names m pre post b first filter alias,
  dcfg_ok k -> ase_ok a -> names_ok names -> plain_filter b ->
  m = pre ++ i_val b ++ post -> (32 <= length post)%nat ->
  (first = true \/ filter = true) ->
  exists ok mt fl al,
    filter_block k a names m (i_opt b) (i_sub b) (Z.of_nat (length pre)) (Z.of_nat (length (i_val b)))
      first filter alias = Ok (Some (ok, mt, fl, al)) /\
    (ok && mt = true <-> (matches k a names b /\ (filter = true \/ is_name_block b = true))) /\
    (ok && mt = true -> fl = true /\ al = alias_after first b alias).
Proof.
  intros k a names m pre post [opt sub v] first filter alias (K1 & K2 & K3 & K4 & K5 & K6 & K7) (A1 & A2 & A3) NM PF E P FF.
  cbn [i_opt i_sub i_val] in *.
  assert (SK : skipn (Z.to_nat (Z.of_nat (length pre))) m = v ++ post).
  { rewrite Nat2Z.id, E, skipn_app, skipn_all, Nat.sub_diag. reflexivity. }
  assert (SAME : forall w, (length w <= 32)%nat -> exists ok mt fl al,
     (if filter then
        do e <- memeq w (v ++ post) (length w);
        if e && (Z.of_nat (length v) =? Z.of_nat (length w)) then Ok (Some (true, true, filter, alias))
        else Ok (Some (true, false, filter, alias))
      else Ok (Some (false, true, filter, alias))) = Ok (Some (ok, mt, fl, al)) /\
     (ok && mt = true <-> v = w /\ filter = true) /\
     (ok && mt = true -> fl = true /\ al = alias)).
  { intros w Lw. destruct filter.
    - destruct (memeq_spec w v post) as (e & Ee & S'); [lia|]. rewrite Ee. cbn [obind].
      destruct (e && (Z.of_nat (length v) =? Z.of_nat (length w))) eqn:C.
      + exists true, true, true, alias. split; [reflexivity|]. split; [|auto].
        split; [|reflexivity]. intros _. split; [apply S'; reflexivity|reflexivity].
      + exists true, false, true, alias. split; [reflexivity|]. split; [|discriminate].
        split; [discriminate|]. intros [H _]. apply S' in H. discriminate.
    - exists false, true, false, alias. split; [reflexivity|]. split; [|discriminate].
      split; [discriminate|]. intros [_ H]. discriminate. }
  unfold filter_block. cbv zeta. rewrite SK. unfold matches, alias_after, is_name_block. cbn [i_opt i_sub i_val].
  unfold get_value, o_ip, o_prop, o_dhcp, o_control, o_initiative, o_all.
  unfold i_mac, i_par, i_suite, p_vendor, p_name, p_id, p_role, p_options, p_alias, p_instance, p_oem, p_gateway.
  destruct PF as [(N0 & PF)|[(N0 & PF)|PF]]; cbn [i_opt i_sub i_val] in *.
  - (* name *)
    injection PF as -> ->. cbn [Z.eqb Pos.eqb andb orb].
    destruct (cstr_split _ A2) as (r & En & Nn). set (nm := cstr (a_name a)) in *. clearbody nm.
    rewrite En, Nat2Z.id.
    destruct (memeq_name nm r v post Nn N0) as (e & Ee & M1 & M2). rewrite Ee. cbn [obind].
    destruct e.
    + destruct (M1 eq_refl) as (t & Et). destruct t as [|x t].
      * rewrite app_nil_r in Et. subst nm.
        rewrite (rd8_at (v ++ 0 :: r) v 0 r) by reflexivity. cbn [obind Z.eqb].
        exists true, true, (first || filter), alias. split; [reflexivity|].
        split; [|intros _; split; [destruct FF as [-> | ->]; [reflexivity|apply orb_true_r]|
                                   destruct first; reflexivity]].
        split; [|reflexivity]. intros _. split; [reflexivity|]. right; reflexivity.
      * rewrite (rd8_at (nm ++ 0 :: r) v x (t ++ 0 :: r));
          [|rewrite Et, <- app_assoc; reflexivity|reflexivity].
        cbn [obind].
        assert (X : x <> 0).
        { intros ->. apply Nn. rewrite Et. apply in_or_app. right; left; reflexivity. }
        apply Z.eqb_neq in X. rewrite X.
        exists true, false, filter, alias. split; [reflexivity|]. split; [|discriminate].
        split; [discriminate|]. intros [H _]. apply (f_equal (@length Z)) in H. rewrite Et, app_length in H.
        cbn [length] in H. lia.
    + exists true, false, filter, alias. split; [reflexivity|]. split; [|discriminate].
      split; [discriminate|]. intros [H _]. apply M2 in H. discriminate.
  - (* alias *)
    injection PF as -> ->. cbn [Z.eqb Pos.eqb andb orb]. unfold alias_size.
    destruct (Z.ltb_spec (Z.of_nat (length v)) 256).
    + rewrite (slice_at m pre v post) by (assumption || reflexivity). cbn [obind].
      rewrite (cstr_id v N0).
      destruct (existsb (list_eqb v) names) eqn:X.
      * apply existsb_in in X.
        exists true, true, (first || filter), (if first then Some v else alias). split; [reflexivity|].
        split; [|intros _; split; [destruct FF as [-> | ->]; [reflexivity|apply orb_true_r]|
                                   destruct first; reflexivity]].
        split; [|reflexivity]. intros _. split; [assumption|]. right; reflexivity.
      * exists true, false, filter, alias. split; [reflexivity|]. split; [|discriminate].
        split; [discriminate|]. intros [H' _]. apply existsb_in in H'. congruence.
    + exists true, false, filter, alias. split; [reflexivity|]. split; [|discriminate].
      split; [discriminate|]. intros [H' _]. unfold names_ok in NM. rewrite Forall_forall in NM.
      apply NM in H'. lia.
  - destruct PF as [PF|[PF|[PF|[PF|[]]]]]; injection PF as <- <-; cbn [Z.eqb Pos.eqb andb orb].
    + destruct (SAME (k_mac k)) as (ok & mt & fl & al & X1 & X2 & X3); [lia|]. rewrite K1 in X1.
      exists ok, mt, fl, al. split; [exact X1|]. split.
      * rewrite X2. split; [intros [? ?]; auto|]. intros [? [?|?]]; [auto|discriminate].
      * rewrite andb_false_r. assumption.
    + destruct (SAME (k_device k)) as (ok & mt & fl & al & X1 & X2 & X3); [lia|]. rewrite K6 in X1.
      exists ok, mt, fl, al. split; [exact X1|]. split.
      * rewrite X2. split; [intros [? ?]; auto|]. intros [? [?|?]]; [auto|discriminate].
      * rewrite andb_false_r. assumption.
    + destruct (SAME [0; 0]) as (ok & mt & fl & al & X1 & X2 & X3); [cbn [length]; lia|].
      exists ok, mt, fl, al. split; [exact X1|]. split.
      * rewrite X2. split; [intros [? ?]; auto|]. intros [? [?|?]]; [auto|discriminate].
      * rewrite andb_false_r. assumption.
    + destruct (SAME (k_oem k)) as (ok & mt & fl & al & X1 & X2 & X3); [lia|]. rewrite K7 in X1.
      exists ok, mt, fl, al. split; [exact X1|]. split.
      * rewrite X2. split; [intros [? ?]; auto|]. intros [? [?|?]]; [auto|discriminate].
      * rewrite andb_false_r. assumption.
Qed.

Lemma enc_iblock_split : forall b, exists p,
  enc_iblock b = [i_opt b; i_sub b] ++ w16 (Z.of_nat (length (i_val b))) ++ i_val b ++ p /\
  length p = (if Nat.odd (length (i_val b)) then 1 else 0)%nat.
Proof.
  intros b. unfold enc_iblock.
  destruct (even_pad_split ([i_opt b; i_sub b] ++ w16 (Z.of_nat (length (i_val b))) ++ i_val b)) as (p & E & _ & L).
  exists p. split; [rewrite E, <- !app_assoc; reflexivity|]. rewrite L.
  cbn [w16 app length]. rewrite !Nat.odd_succ, !Nat.even_succ, !Nat.odd_succ, !Nat.even_succ.
  reflexivity.
Qed.

Definition alias_of (first : bool) (l : list iblock) (alias : option (list Z)) : option (list Z) :=
  match l with b :: _ => alias_after first b alias | [] => alias end.

Lemma rd16_next : forall l m pre post, m = pre ++ enc_identify l ++ post -> bytes post ->
  (32 <= length post)%nat -> exists v, rd16 m (Z.of_nat (length pre) + 2) = Ok v /\ 0 <= v /\
    match l with b :: _ => v = Z.of_nat (length (i_val b)) | [] => True end.
Proof.
  intros [|b l] m pre post E B P.
  - cbn [enc_identify flat_map app] in E.
    destruct (rd16_post m pre post (Z.of_nat (length pre) + 2) E B) as (v & V & V0); [lia| |eauto].
    rewrite E, app_length. lia.
  - exists (Z.of_nat (length (i_val b))). split; [|split; [lia|reflexivity]].
    destruct (enc_iblock_split b) as (p & Eb & _).
    apply rd16_at with (pre := pre ++ [i_opt b; i_sub b]) (post := i_val b ++ p ++ enc_identify l ++ post).
    + rewrite E. cbn [enc_identify flat_map]. fold (enc_identify l). rewrite Eb, <- !app_assoc. reflexivity.
    + rewrite app_length. cbn [length]. lia.
Qed.

Lemma filter_loop_spec : forall l fuel k a names m dcplen pre post first filter alias,
  dcfg_ok k -> ase_ok a -> names_ok names -> Forall plain_filter l ->
  m = pre ++ enc_identify l ++ post -> (32 <= length post)%nat -> bytes post ->
  Nat.even (length pre) = true ->
  dcplen = Z.of_nat (length pre + length (enc_identify l)) -> dcplen <= 65000 ->
  (length l < fuel)%nat -> (first = true \/ filter = true) ->
  exists hit al,
  (do blen <- rd16 m (Z.of_nat (length pre) + 2);
   filter_loop fuel k a names m dcplen (Z.of_nat (length pre)) (u16 (Z.of_nat (length pre) + 4)) blen first filter alias)
  = Ok (hit, al) /\
  (hit = true <-> Forall (matches k a names) l /\
     (filter = true \/ match l with b :: _ => is_name_block b = true | [] => True end)) /\
  (hit = true -> al = alias_of first l alias).
Proof.
  induction l as [|b l IH]; intros fuel k a names m dcplen pre post first filter alias K A NM PF E P BP Ev D DB F FF;
    (destruct fuel as [|fuel]; [cbn [length] in F; lia|]).
  - destruct (rd16_next [] m pre post E BP P) as (v & V & V0 & _). rewrite V. cbn [obind filter_loop].
    cbn [enc_identify flat_map length app] in D, E. rewrite u16_id by lia.
    destruct (Z.leb_spec (Z.of_nat (length pre) + 4 + v) dcplen); [lia|]. rewrite andb_false_r.
    exists true, alias. split; [reflexivity|]. split; [|reflexivity]. split; [|reflexivity].
    intros _. split; [constructor|]. destruct FF; auto.
  - inversion PF as [|? ? PF1 PF2]; subst.
    destruct (rd16_next (b :: l) (pre ++ enc_identify (b :: l) ++ post) pre post eq_refl BP P) as (x & X & _ & ->).
    rewrite X. clear X.
    destruct (enc_iblock_split b) as (p & Eb & Lp).
    set (v := i_val b) in *. set (n := length v) in *.
    cbn [enc_identify flat_map] in *. fold (enc_identify l) in *.
    set (m := pre ++ (enc_iblock b ++ enc_identify l) ++ post) in *.
    assert (Em : m = pre ++ [i_opt b; i_sub b] ++ w16 (Z.of_nat n) ++ v ++ p ++ enc_identify l ++ post).
    { unfold m. rewrite Eb. rewrite <- !app_assoc. reflexivity. }
    cbn [obind filter_loop].
    assert (Le : length (enc_iblock b) = (4 + n + length p)%nat)
      by (rewrite Eb, !app_length; cbn [length w16]; fold n; lia).
    rewrite !app_length in *.
    rewrite (u16_id (Z.of_nat (length pre) + 4)) by lia.
    destruct (Z.leb_spec (Z.of_nat (length pre) + 4 + Z.of_nat n)
                         (Z.of_nat (length pre + (length (enc_iblock b) + length (enc_identify l))))); [|lia].
    replace (first || filter) with true by (destruct FF as [-> | ->]; [reflexivity|symmetry; apply orb_true_r]).
    cbn [andb].
    rewrite (rd8_at m pre (i_opt b) (i_sub b :: w16 (Z.of_nat n) ++ v ++ p ++ enc_identify l ++ post));
      [|rewrite Em; reflexivity|reflexivity].
    cbn [obind].
    rewrite (rd8_at m (pre ++ [i_opt b]) (i_sub b) (w16 (Z.of_nat n) ++ v ++ p ++ enc_identify l ++ post));
      [|rewrite Em, <- app_assoc; reflexivity|rewrite app_length; cbn [length]; lia].
    cbn [obind].
    replace (Z.of_nat (length pre) + 4) with (Z.of_nat (length (pre ++ [i_opt b; i_sub b] ++ w16 (Z.of_nat n))))
      by (rewrite !app_length; cbn [length w16]; lia).
    destruct (filter_block_spec k a names m (pre ++ [i_opt b; i_sub b] ++ w16 (Z.of_nat n)) (p ++ enc_identify l ++ post)
                b first filter alias K A NM PF1) as (ok & mt & fl & al & FB & S1 & S2).
    { rewrite Em, <- !app_assoc. reflexivity. }
    { rewrite !app_length. lia. }
    { assumption. }
    fold v in FB. fold n in FB. rewrite FB. clear FB. cbn [obind].
    replace (length (pre ++ [i_opt b; i_sub b] ++ w16 (Z.of_nat n))) with (length pre + 4)%nat
      by (rewrite !app_length; cbn [length w16]; lia).
    assert (Epos := pos_next (length pre + 4) n p). cbv zeta in Epos |- *.
    rewrite Epos; [|rewrite Nat.even_add, Ev; reflexivity|exact Lp|lia].
    replace (Z.of_nat (length pre + 4 + n + length p)) with (Z.of_nat (length (pre ++ enc_iblock b)))
      by (rewrite app_length; lia).
    assert (Em' : m = (pre ++ enc_iblock b) ++ enc_identify l ++ post)
      by (unfold m; rewrite <- !app_assoc; reflexivity).
    destruct (rd16_next l m (pre ++ enc_iblock b) post Em' BP P) as (y & Y & _ & _).
    destruct (ok && mt) eqn:OM.
    + destruct (S2 eq_refl) as (-> & ->).
      destruct (IH fuel k a names m (Z.of_nat (length pre + (length (enc_iblock b) + length (enc_identify l))))
                  (pre ++ enc_iblock b) post false true (alias_after first b alias)) as (hit & al' & R & H1 & H2);
        try assumption.
      { rewrite app_length. apply even_add; [assumption|apply even_pad_even]. }
      { rewrite app_length. lia. }
      { cbn [length] in F. lia. }
      { right; reflexivity. }
      exists hit, al'. rewrite Y in *. cbn [obind] in *. split; [exact R|].
      destruct (proj1 S1 eq_refl) as (M & FN). split.
      * rewrite H1. split.
        -- intros [H' _]. split; [constructor; assumption|]. exact FN.
        -- intros [H' _]. inversion H'; subst. split; [assumption|]. left; reflexivity.
      * intros H'. rewrite (H2 H'). destruct l; reflexivity.
    + rewrite Y. cbn [obind]. exists false, al. split; [reflexivity|]. split; [|discriminate].
      split; [discriminate|]. intros [H' FN]. inversion H'; subst. exfalso.
      assert (false = true) by (apply S1; auto). discriminate.
Qed.
