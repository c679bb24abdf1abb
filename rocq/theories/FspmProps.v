(** The log book (C109), and I&M data as far as they do not need the read handler
    (C108). *)
From Coq Require Import List ZArith Arith Lia Bool.
From Verif Require Import Base CpmModel CpmProps BlockModel BlockReadLemmas BlockWriteProps FspmModel.
Import ListNotations.
Local Open Scope Z_scope.

(** * C109: the log book *)

(** What happened: connection (None: unknown), time, status, detail. *)
Record happening := mkHap { p_ar : option uuid; p_time : Z; p_stat : pnio; p_det : Z }.

(** The book after a history. *)
Fixpoint book_run (b : book) (h : list happening) : outcome book :=
  match h with
  | [] => Ok b
  | e :: h => do b' <- add_entry b (p_ar e) (p_time e) (p_stat e) (p_det e); book_run b' h
  end.

(** Specification: the events of known connections, oldest first. *)
Fixpoint logged (h : list happening) : list entry :=
  match h with
  | [] => []
  | e :: h =>
    match p_ar e with
    | Some u => [mkEntry (p_time e / 1000000) (p_time e mod 1000000 * 1000) u (p_stat e) (p_det e)]
    | None => []
    end ++ logged h
  end.
(** The last [k] elements of a list. *)
Definition latest (k : nat) (l : list entry) : list entry := skipn (length l - k) l.

Definition binv (n : nat) (l : list entry) (b : book) : Prop :=
  length (b_ent b) = n /\ b_put b = (length l mod n)%nat /\ b_wrap b = (n <=? length l)%nat /\
  forall i, (i < length l)%nat -> (length l <= i + n)%nat -> nth_error (b_ent b) (i mod n) = nth_error l i.

Lemma set_nth_length : forall A (l : list A) k x, (k < length l)%nat -> length (set_nth l k x) = length l.
Proof. intros A l k x K. unfold set_nth. rewrite !app_length, firstn_length, skipn_length. cbn [length]. lia. Qed.
Lemma set_nth_same : forall A (l : list A) k x, (k < length l)%nat -> nth_error (set_nth l k x) k = Some x.
Proof.
  intros A l k x K. unfold set_nth. rewrite nth_error_app2 by (rewrite firstn_length; lia). rewrite firstn_length.
  replace (k - Nat.min k (length l))%nat with 0%nat by lia. reflexivity.
Qed.
Lemma set_nth_other : forall A (l : list A) k j x, (k < length l)%nat -> j <> k -> nth_error (set_nth l k x) j = nth_error l j.
Proof.
  intros A l k j x K N. unfold set_nth. destruct (lt_dec j k).
  - rewrite nth_error_app1 by (rewrite firstn_length; lia).
    rewrite <- (firstn_skipn k l) at 2. rewrite nth_error_app1 by (rewrite firstn_length; lia). reflexivity.
  - rewrite nth_error_app2 by (rewrite firstn_length; lia). rewrite firstn_length.
    replace (j - Nat.min k (length l))%nat with (S (j - k - 1)) by lia. cbn [app nth_error].
    rewrite <- (firstn_skipn (S k) l) at 2. rewrite nth_error_app2 by (rewrite firstn_length; lia). rewrite firstn_length.
    f_equal. lia.
Qed.

Lemma mod_step : forall a n, (1 <= n)%nat -> (S a mod n = if n <=? S (a mod n) then 0 else S (a mod n))%nat.
Proof.
  intros a n N. assert (M := Nat.mod_upper_bound a n ltac:(lia)). assert (D := Nat.div_mod a n ltac:(lia)).
  destruct (Nat.leb_spec n (S (a mod n))).
  - symmetry. apply (Nat.mod_unique _ _ (S (a / n))); [lia|]. rewrite D at 1. rewrite Nat.mul_succ_r. lia.
  - symmetry. apply (Nat.mod_unique _ _ (a / n)); [lia|]. lia.
Qed.
Lemma mod_ne : forall n i j, (1 <= n)%nat -> (i < j)%nat -> (j < i + n)%nat -> (i mod n <> j mod n)%nat.
Proof.
  intros n i j N I J E. assert (A := Nat.div_mod i n ltac:(lia)). assert (B := Nat.div_mod j n ltac:(lia)).
  rewrite E in A. assert (L : (n * (j / n) - n * (i / n) = j - i)%nat) by lia.
  rewrite <- Nat.mul_sub_distr_l in L. destruct (j / n - i / n)%nat as [|d]; nia.
Qed.

Lemma binv_add : forall n l b e b', (1 <= n)%nat -> binv n l b ->
  add_entry b (p_ar e) (p_time e) (p_stat e) (p_det e) = Ok b' -> binv n (l ++ logged [e]) b'.
Proof.
  intros n l b e b' N (L & P & W & C) H. unfold add_entry in H. cbn [logged]. rewrite app_nil_r.
  destruct (p_ar e) as [u|].
  2:{ injection H as <-. rewrite app_nil_r. repeat split; auto. }
  set (x := mkEntry _ _ _ _ _) in *.
  assert (M := Nat.mod_upper_bound (length l) n ltac:(lia)).
  rewrite L in H. rewrite P in H.
  destruct (Nat.ltb_spec (length l mod n) n); [|lia].
  assert (P' : (length (l ++ [x]) mod n = if n <=? S (length l mod n) then 0 else S (length l mod n))%nat).
  { rewrite app_length. cbn [length]. rewrite Nat.add_1_r. apply mod_step. exact N. }
  assert (X : b' = mkBook (set_nth (b_ent b) (length l mod n) x) (length (l ++ [x]) mod n)
                     (if (n <=? S (length l mod n))%nat then true else b_wrap b)).
  { rewrite P'. destruct (n <=? S (length l mod n))%nat; injection H as <-; reflexivity. }
  clear H. subst b'. unfold binv. cbn [b_ent b_put b_wrap].
  split; [rewrite set_nth_length by lia; exact L|]. split; [reflexivity|]. split.
  - rewrite W, app_length. cbn [length]. assert (D := Nat.div_mod (length l) n ltac:(lia)).
    destruct (Nat.leb_spec n (S (length l mod n))); destruct (Nat.leb_spec n (length l)); destruct (Nat.leb_spec n (length l + 1)); try reflexivity; try lia;
    exfalso; rewrite Nat.mod_small in * by lia; lia.
  - intros i I J. rewrite app_length in I, J. cbn [length] in I, J. destruct (Nat.eq_dec i (length l)) as [->|Ne].
    + rewrite set_nth_same by lia. rewrite nth_error_app2 by lia. rewrite Nat.sub_diag. reflexivity.
    + rewrite set_nth_other; [|lia|apply mod_ne; lia]. rewrite nth_error_app1 by lia. apply C; lia.
Qed.

Lemma add_total : forall n l b e, (1 <= n)%nat -> binv n l b ->
  exists b', add_entry b (p_ar e) (p_time e) (p_stat e) (p_det e) = Ok b'.
Proof.
  intros n l b e N (L & P & _). unfold add_entry. destruct (p_ar e) as [u|]; [|eauto]. rewrite L, P.
  assert (M := Nat.mod_upper_bound (length l) n ltac:(lia)). destruct (Nat.ltb_spec (length l mod n) n); [|lia].
  destruct (n <=? S (length l mod n))%nat; eauto.
Qed.

Lemma logged_app : forall h e, logged (e :: h) = logged [e] ++ logged h.
Proof. intros h e. cbn [logged]. rewrite app_nil_r. reflexivity. Qed.

Lemma binv_run : forall n h l b, (1 <= n)%nat -> binv n l b -> exists b', book_run b h = Ok b' /\ binv n (l ++ logged h) b'.
Proof.
  induction h as [|e h IH]; intros l b N B.
  - exists b. cbn [book_run logged]. rewrite app_nil_r. auto.
  - destruct (add_total n l b e N B) as [b1 E1]. cbn [book_run]. rewrite E1. cbn [obind].
    destruct (IH (l ++ logged [e]) b1 N (binv_add _ _ _ _ _ N B E1)) as (b' & E & B'). exists b'. split; [exact E|].
    rewrite logged_app, app_assoc. exact B'.
Qed.
Lemma binv0 : forall n, (1 <= n)%nat -> binv n [] (book0 n).
Proof.
  intros n N. unfold binv, book0. cbn [b_ent b_put b_wrap length]. rewrite repeat_length, Nat.mod_0_l by lia.
  repeat split; auto; [destruct n; [lia|reflexivity]|intros i I; lia].
Qed.

Lemma skipn_nth_cons : forall A (l : list A) i x, nth_error l i = Some x -> skipn i l = x :: skipn (S i) l.
Proof.
  induction l as [|y l IH]; intros [|i] x H; cbn [nth_error] in H; try discriminate; cbn [skipn].
  - injection H as ->. reflexivity.
  - rewrite (IH i x H). reflexivity.
Qed.

Lemma walk_spec : forall n l b fuel k i, (1 <= n)%nat -> binv n l b -> (i + k = length l)%nat -> (k < n)%nat -> (k <= fuel)%nat ->
  book_walk fuel b (i mod n) = Some (skipn i l).
Proof.
  intros n l b. induction fuel as [|fuel IH]; intros k i N B I K F; assert (B0 := B); destruct B as (L & P & W & C).
  - assert (k = 0%nat) by lia. assert (i = length l) by lia. subst i. cbn [book_walk]. rewrite P, Nat.eqb_refl, skipn_all. reflexivity.
  - cbn [book_walk]. destruct (Nat.eqb_spec (i mod n) (b_put b)) as [E|E].
    + rewrite P in E. destruct (Nat.eq_dec k 0) as [->|Nk].
      * rewrite skipn_all2 by lia. reflexivity.
      * exfalso. apply (mod_ne n i (length l)); try lia.
    + assert (K1 : (1 <= k)%nat). { destruct k; [|lia]. exfalso. apply E. rewrite P. f_equal. lia. }
      rewrite (C i) by lia. destruct (nth_error l i) as [x|] eqn:X.
      2:{ apply nth_error_None in X. lia. }
      rewrite L, <- (mod_step i n N). rewrite (IH (k - 1)%nat (S i) N B0 ltac:(lia) ltac:(lia) ltac:(lia)).
      rewrite (skipn_nth_cons _ _ _ _ X). reflexivity.
Qed.

(** The entries listed by the answer. *)
Definition listed (b : book) : option (list entry) := book_walk (length (b_ent b)) b (book_first b).

(** Full claim: [listed b = Some (latest n (logged h))] and the announced number is its
    length.  Missing: once the book is full, the oldest of its [n] events is not
    listed (see C109_full_refuted). *)
Theorem C109_latest_partial : forall n h, (1 <= n)%nat ->
  exists b, book_run (book0 n) h = Ok b /\
  listed b = Some (if (length (logged h) <? n)%nat then logged h else latest (n - 1) (logged h)) /\
  book_count b = Z.of_nat (Nat.min n (length (logged h))).
Proof.
  intros n h N. destruct (binv_run n h [] (book0 n) N (binv0 n N)) as (b & E & B). cbn [app] in B.
  exists b. split; [exact E|]. assert (B0 := B). destruct B as (L & P & W & C).
  assert (D := Nat.div_mod (length (logged h)) n ltac:(lia)). assert (M := Nat.mod_upper_bound (length (logged h)) n ltac:(lia)).
  unfold listed, book_first, book_count, latest. rewrite L, W.
  destruct (Nat.ltb_spec (length (logged h)) n) as [S1|S1].
  - destruct (Nat.leb_spec n (length (logged h))); [lia|]. split.
    + assert (X := walk_spec n (logged h) b n (length (logged h)) 0 N B0 ltac:(lia) ltac:(lia) ltac:(lia)).
      rewrite Nat.mod_0_l in X by lia. exact X.
    + rewrite P, Nat.mod_small by lia. f_equal. lia.
  - destruct (Nat.leb_spec n (length (logged h))); [|lia]. split; [|f_equal; lia].
    assert (X := walk_spec n (logged h) b n (n - 1)%nat (length (logged h) - (n - 1))%nat N B0 ltac:(lia) ltac:(lia) ltac:(lia)).
    rewrite <- X. f_equal. rewrite P, <- mod_step by lia.
    replace (S (length (logged h))) with ((length (logged h) - (n - 1)) + 1 * n)%nat by lia.
    rewrite Nat.mod_add by lia. reflexivity.
Qed.
Print Assumptions C109_latest_partial.

(** The count announced is the number listed exactly as long as the book never was full. *)
Theorem C109_full_refuted : forall n h b, (1 <= n)%nat -> book_run (book0 n) h = Ok b -> (n <= length (logged h))%nat ->
  exists l, listed b = Some l /\ book_count b = Z.of_nat (S (length l)).
Proof.
  intros n h b N R L. destruct (C109_latest_partial n h N) as (b' & R' & Li & Co). rewrite R in R'. injection R' as <-.
  destruct (Nat.ltb_spec (length (logged h)) n); [lia|]. eexists. split; [exact Li|]. rewrite Co. unfold latest.
  rewrite skipn_length. f_equal. lia.
Qed.
Print Assumptions C109_full_refuted.

(** Bytes of the answer (specification of the layout). *)
Definition eentry (be : bool) (e : entry) : list Z :=
  e16 be 0 ++ e16 be (g_sec e) ++ e32 be (g_nano e) ++ euuid be (g_uuid e) ++ epnio be (g_status e) ++ e32 be (g_detail e).
Definition entry_ok (e : entry) : Prop :=
  0 <= g_sec e < 65536 /\ 0 <= g_nano e < 4294967296 /\ uuid_ok (g_uuid e) /\ pnio_ok (g_status e) /\ 0 <= g_detail e < 4294967296.
(** Times of the 32-bit clock; details are 32-bit numbers. *)
Definition hap_ok (e : happening) : Prop :=
  0 <= p_time e < 4294967296 /\ match p_ar e with Some u => uuid_ok u | None => True end /\ pnio_ok (p_stat e) /\ 0 <= p_det e < 4294967296.

Lemma enc_entries : forall be l, Forall entry_ok l -> enc (put_entries be l) (flat_map (eentry be) l).
Proof.
  intros be l F. induction F as [|e l (A & B & C & D & E) F IH]; [apply enc_skip|]. cbn [put_entries flat_map].
  apply enc_seq; [|exact IH]. unfold put_entry, put_time, eentry.
  replace (e16 be 0 ++ e16 be (g_sec e) ++ e32 be (g_nano e) ++ euuid be (g_uuid e) ++ epnio be (g_status e) ++ e32 be (g_detail e))
    with ((e16 be 0 ++ e16 be (g_sec e) ++ e32 be (g_nano e)) ++ euuid be (g_uuid e) ++ epnio be (g_status e) ++ e32 be (g_detail e)) by (rewrite <- !app_assoc; reflexivity).
  apply enc_seq.
  - apply enc_seq; [apply enc_u16; lia|]. apply enc_seq; [apply enc_u16; lia|apply enc_u32; lia].
  - apply enc_seq; [apply enc_uuid; assumption|]. apply enc_seq; [apply enc_pnio_any; assumption|apply enc_u32; lia].
Qed.

Lemma logged_ok : forall h, Forall hap_ok h -> Forall entry_ok (logged h).
Proof.
  intros h F. induction F as [|e h (A & B & C & D) F IH]; [constructor|]. cbn [logged]. destruct (p_ar e) as [u|]; [|exact IH].
  cbn [app]. constructor; [|exact IH]. unfold entry_ok. cbn [g_sec g_nano g_uuid g_status g_detail]. repeat split; try apply B; try apply C; try lia.
  - apply Z.div_pos; lia.
  - apply Z.div_lt_upper_bound; lia.
  - assert (0 <= p_time e mod 1000000 < 1000000) by (apply Z.mod_pos_bound; lia). lia.
  - assert (0 <= p_time e mod 1000000 < 1000000) by (apply Z.mod_pos_bound; lia). lia.
Qed.

Lemma eentry_length : forall be e, uuid_ok (g_uuid e) -> length (eentry be e) = 32%nat.
Proof.
  intros be e U. unfold eentry, epnio. rewrite !app_length, !e16_length, !e32_length, euuid_length by exact U.
  destruct be; reflexivity.
Qed.
Lemma flat_entries_length : forall be l, Forall entry_ok l -> length (flat_map (eentry be) l) = (32 * length l)%nat.
Proof.
  intros be l F. induction F as [|e l (_ & _ & U & _) F IH]; [reflexivity|]. cbn [flat_map length].
  rewrite app_length, eentry_length, IH by exact U. lia.
Qed.

(** The answer to a read of the log book, in a buffer with room: type, length, version,
    a time of zero, the number announced and the entries.  The seconds are written as
    16 bits: enough, as the clock wraps after 4295 seconds. *)
Theorem C109_bytes : forall n be h, (1 <= n <= 2000)%nat -> Forall hap_ok h ->
  exists b f l, book_run (book0 n) h = Ok b /\ listed b = Some l /\ put_log_book be b = Some f /\
  enc f (eblock be 25 (repeat 0 8 ++ e16 be (book_count b) ++ flat_map (eentry be) l)).
Proof.
  intros n be h N F. destruct (C109_latest_partial n h ltac:(lia)) as (b & R & Li & Co).
  set (l := if (length (logged h) <? n)%nat then logged h else latest (n - 1) (logged h)) in *.
  assert (Lo := logged_ok _ F).
  assert (Fl : Forall entry_ok l).
  { unfold l. destruct (length (logged h) <? n)%nat; [exact Lo|]. unfold latest. rewrite <- (firstn_skipn (length (logged h) - (n - 1)) (logged h)) in Lo.
    apply Forall_app in Lo. apply Lo. }
  assert (Ll : (length l <= n)%nat).
  { unfold l. destruct (Nat.ltb_spec (length (logged h)) n); [lia|]. unfold latest. rewrite skipn_length. lia. }
  exists b, (put_block be 25 (put_time be 0 0 0 ;; put_u16 be (book_count b) ;; put_entries be l)), l.
  split; [exact R|]. split; [exact Li|]. split; [unfold put_log_book; unfold listed in Li; rewrite Li; reflexivity|].
  assert (Cr : 0 <= book_count b < 65536) by (rewrite Co; lia).
  apply enc_block; [lia|rewrite !app_length, repeat_length, e16_length, flat_entries_length by exact Fl; lia|].
  apply enc_seq.
  - unfold put_time. replace (repeat 0 8) with (e16 be 0 ++ e16 be 0 ++ e32 be 0) by (destruct be; reflexivity).
    apply enc_seq; [apply enc_u16; lia|]. apply enc_seq; [apply enc_u16; lia|apply enc_u32; lia].
  - apply enc_seq; [apply enc_u16; lia|]. apply enc_entries. exact Fl.
Qed.
Print Assumptions C109_bytes.

(** A book with four places: three events are all listed; after five events three are
    listed and four announced. *)
Definition hap (n : Z) : happening := mkHap (Some (mkUuid n 0 0 (repeat 0 8))) (1500000 * n) (mkPnio 219 129 2 n) n.
Example C109_example :
  (exists b, book_run (book0 4) [hap 1; mkHap None 7 (mkPnio 1 2 3 4) 5; hap 2; hap 3] = Ok b /\
     option_map (map g_detail) (listed b) = Some [1; 2; 3] /\ book_count b = 3) /\
  (exists b, book_run (book0 4) (map hap [1; 2; 3; 4; 5]) = Ok b /\
     option_map (map g_detail) (listed b) = Some [3; 4; 5] /\ book_count b = 4).
Proof. split; eexists; (split; [reflexivity|]); split; reflexivity. Qed.
Print Assumptions C109_example.

(** * C108: I&M data *)

(** Arrays of the right size, strings terminated. *)
Definition terminated (n : nat) (a : list Z) : Prop := length a = S n /\ nth n a 0 = 0.
Definition im_ok (m : im) : Prop :=
  terminated 32 (i_fun m) /\ terminated 22 (i_loc m) /\ terminated 16 (i_date m) /\ terminated 54 (i_desc m) /\ length (i_sig m) = 54%nat.

(** Specification: sizes of the records, and the text that is read for a string: up to
    its end, padded with spaces. *)
Definition rec_size (k : Z) : nat := if k =? 2 then 16%nat else 54%nat.
Definition text (n : nat) (a : list Z) : list Z := before_nul a ++ repeat 32 (n - length (before_nul a)).
Definition im_data (m : im) (k : Z) : list Z :=
  if k =? 1 then text 32 (i_fun m) ++ text 22 (i_loc m)
  else if k =? 2 then text 16 (i_date m)
  else if k =? 3 then text 54 (i_desc m)
  else i_sig m.

Lemma before_nul_le : forall a, (length (before_nul a) <= length a)%nat.
Proof. induction a as [|x a IH]; [apply Nat.le_refl|]. cbn [before_nul]. destruct (x =? 0); cbn [length]; lia. Qed.
Lemma before_nul_stop : forall a b, before_nul (a ++ 0 :: b) = before_nul a.
Proof. induction a as [|x a IH]; intros b; [reflexivity|]. cbn [app before_nul]. destruct (x =? 0); [reflexivity|]. rewrite IH. reflexivity. Qed.
Lemma before_nul_id : forall a, ~ In 0 a -> before_nul a = a.
Proof.
  induction a as [|x a IH]; intros N; [reflexivity|]. cbn [before_nul]. destruct (Z.eqb_spec x 0) as [->|]; [exfalso; apply N; left; reflexivity|].
  rewrite IH; [reflexivity|]. intros I. apply N. right. exact I.
Qed.
Lemma terminated_split : forall n a, terminated n a -> a = firstn n a ++ [0].
Proof.
  intros n a (L & Z0). rewrite <- (firstn_skipn n a) at 1. f_equal.
  assert (K : length (skipn n a) = 1%nat) by (rewrite skipn_length; lia).
  destruct (skipn n a) as [|x [|y s]] eqn:E; try discriminate. f_equal.
  rewrite <- (firstn_skipn n a), E, app_nth2 in Z0 by (rewrite firstn_length; lia). rewrite firstn_length in Z0.
  replace (n - Nat.min n (length a))%nat with 0%nat in Z0 by lia. exact Z0.
Qed.
Lemma terminated_le : forall n a, terminated n a -> (length (before_nul a) <= n)%nat.
Proof.
  intros n a T. rewrite (terminated_split _ _ T), before_nul_stop. assert (B := before_nul_le (firstn n a)).
  rewrite firstn_length in B. lia.
Qed.
Lemma text_length : forall n a, terminated n a -> length (text n a) = n.
Proof. intros n a T. unfold text. rewrite app_length, repeat_length. assert (X := terminated_le _ _ T). lia. Qed.
Lemma text_written : forall n d, length d = n -> ~ In 0 d -> text n (d ++ [0]) = d.
Proof. intros n d L N. unfold text. rewrite before_nul_stop, before_nul_id, L, Nat.sub_diag by exact N. apply app_nil_r. Qed.
Lemma terminated_app : forall n d, length d = n -> terminated n (d ++ [0]).
Proof.
  intros n d L. split; [rewrite app_length; cbn [length]; lia|]. rewrite app_nth2 by lia. rewrite L, Nat.sub_diag. reflexivity.
Qed.

(** pf_get_im_1, by length of the data. *)
Lemma put_nul_noop : forall n a r, terminated n a -> put_nul a (Z.of_nat n) r = Ok (a, r).
Proof.
  intros n a r T. unfold put_nul. rewrite Nat2Z.id. assert (T' := T). destruct T as (L & _).
  destruct (Nat.ltb_spec n (length a)); [|lia]. f_equal. f_equal.
  rewrite (skipn_all2 a) by lia. rewrite app_nil_r. symmetry. apply terminated_split. exact T'.
Qed.
Lemma put_nul_end : forall n d x r, length d = n -> put_nul (d ++ [x]) (Z.of_nat n) r = Ok (d ++ [0], r).
Proof.
  intros n d x r L. unfold put_nul. rewrite Nat2Z.id, app_length. cbn [length].
  destruct (Nat.ltb_spec n (length d + 1)); [|lia].
  rewrite firstn_app, L, Nat.sub_diag, firstn_all2 by lia. cbn [firstn]. rewrite app_nil_r.
  rewrite (skipn_all2 (d ++ [x])) by (rewrite app_length; cbn [length]; lia). reflexivity.
Qed.
Lemma skipn_last : forall n a, length a = S n -> skipn n a = [nth n a 0].
Proof.
  intros n a L. assert (K : length (skipn n a) = 1%nat) by (rewrite skipn_length; lia).
  destruct (skipn n a) as [|x [|y s]] eqn:E; try discriminate. f_equal.
  rewrite <- (firstn_skipn n a), E, app_nth2 by (rewrite firstn_length; lia). rewrite firstn_length.
  replace (n - Nat.min n (length a))%nat with 0%nat by lia. reflexivity.
Qed.

Lemma get_im_1_spec : forall d f l, terminated 32 f -> terminated 22 l -> Z.of_nat (length d) < 65536 ->
  get_im_1 f l (mkRd (Some d) (Z.of_nat (length d)) true POk 0) =
  if (length d <? 32)%nat then Ok ((f, l), mkRd (Some d) (Z.of_nat (length d)) true PEnd 0)
  else if (length d <? 54)%nat then Ok ((firstn 32 d ++ [0], l), mkRd (Some d) (Z.of_nat (length d)) true PEnd 32)
  else Ok ((firstn 32 d ++ [0], firstn 22 (skipn 32 d) ++ [0]), mkRd (Some d) (Z.of_nat (length d)) true POk 54).
Proof.
  intros d f l F L N. unfold get_im_1, rbind.
  unfold get_mem_into at 1. unfold get_mem at 1. cbn [r_res is_ok negb r_len r_pos r_buf].
  rewrite Z.add_0_l. destruct (Nat.ltb_spec (length d) 32) as [S1|S1].
  { destruct (Z.ltb_spec (Z.of_nat (length d)) 32); [|lia]. cbn [obind].
    rewrite (put_nul_noop 32) by exact F. cbn [obind].
    unfold get_mem_into, get_mem, set_res. cbn [r_res is_ok negb r_len r_pos r_buf r_be obind].
    rewrite (put_nul_noop 22) by exact L. reflexivity. }
  destruct (Z.ltb_spec (Z.of_nat (length d)) 32); [lia|].
  rewrite slice_ok by lia. cbn [obind]. change (33 <? 32) with false. cbv iota.
  change (Z.to_nat 0) with 0%nat. change (Z.to_nat 32) with 32%nat. rewrite skipn_O.
  destruct F as (F & _). rewrite (skipn_last 32 f F). cbn [obind].
  rewrite (put_nul_end 32) by (rewrite firstn_length; lia). cbn [obind].
  unfold get_mem_into, get_mem, set_pos. cbn [r_res is_ok negb r_len r_pos r_buf r_be].
  change (u16 32) with 32. change (32 + 22) with 54.
  destruct (Nat.ltb_spec (length d) 54) as [S2|S2].
  { destruct (Z.ltb_spec (Z.of_nat (length d)) 54); [|lia]. cbn [obind]. rewrite (put_nul_noop 22) by exact L. reflexivity. }
  destruct (Z.ltb_spec (Z.of_nat (length d)) 54); [lia|].
  rewrite slice_ok by lia. cbn [obind]. change (23 <? 22) with false. cbv iota.
  change (Z.to_nat 22) with 22%nat. change (Z.to_nat 32) with 32%nat.
  destruct L as (L & _). rewrite (skipn_last 22 l L). cbn [obind].
  rewrite (put_nul_end 22) by (rewrite firstn_length, skipn_length; lia). reflexivity.
Qed.

(** Acceptance as the property states it. *)
Definition acceptable (sup ix : Z) (d : list Z) : Prop :=
  1 <= ix - 45040 <= 4 /\ Z.testbit sup (ix - 45040) = true /\ length d = rec_size (ix - 45040).

Lemma supports_spec : forall sup k, 0 <= sup -> 0 <= k -> supports sup k = Z.testbit sup k.
Proof.
  intros sup k S0 K. unfold supports. rewrite Z.shiftl_1_l.
  destruct (Z.testbit sup k) eqn:B.
  - apply Z.ltb_lt. assert (P : 0 <= Z.land sup (2 ^ k)) by (apply Z.land_nonneg; left; exact S0).
    assert (Z.land sup (2 ^ k) <> 0); [|lia]. intros E. assert (X := Z.land_spec sup (2 ^ k) k). rewrite E, Z.bits_0, B, Z.pow2_bits_true in X by exact K. discriminate.
  - apply Z.ltb_ge. replace (Z.land sup (2 ^ k)) with 0; [lia|]. symmetry. apply Z.bits_inj'. intros j J. rewrite Z.land_spec, Z.bits_0.
    destruct (Z.eq_dec j k) as [->|Ne]; [rewrite B; reflexivity|]. rewrite Z.pow2_bits_false by auto. apply andb_false_r.
Qed.

(** Everything about one write. *)
Lemma write_im_all : forall sup m ix d, 0 <= sup -> im_ok m -> 45040 <= ix <= 45055 -> Z.of_nat (length d) < 65536 ->
  exists m' r, write_im sup m ix d = Ok (m', r) /\ im_ok m' /\ (r = None <-> acceptable sup ix d) /\
  (r = None -> (ix = 45044 \/ ~ In 0 d) -> im_data m' (ix - 45040) = d) /\
  (forall k, 1 <= k <= 4 -> k <> ix - 45040 -> im_data m' k = im_data m k) /\
  (r <> None -> ix <> 45041 \/ (length d < 32)%nat \/ Z.testbit sup 1 = false -> m' = m).
Proof.
  intros sup m ix d S0 M I N. assert (M' := M). destruct M as (F & L & Da & De & Si). unfold write_im, acceptable. change ix_im0 with 45040. cbv zeta.
  set (k := ix - 45040). assert (K : 0 <= k <= 15) by lia.
  destruct (Z.eqb_spec k 0) as [K0|K0].
  { exists m, (Some (write_error err_denied)). split; [reflexivity|]. split; [exact M'|]. split; [split; [discriminate|lia]|]. repeat split; auto; discriminate. }
  destruct (Z.ltb_spec 4 k) as [K4|K4].
  { exists m, (Some (write_error err_index)). split; [reflexivity|]. split; [exact M'|]. split; [split; [discriminate|lia]|]. repeat split; auto; discriminate. }
  rewrite supports_spec by lia. destruct (Z.testbit sup k) eqn:B; cbn [negb].
  2:{ exists m, (Some (write_error err_index)). split; [reflexivity|]. split; [exact M'|]. split; [split; [discriminate|intros (_ & X & _); discriminate]|]. repeat split; auto; discriminate. }
  assert (E : k = 1 \/ k = 2 \/ k = 3 \/ k = 4) by lia. unfold rec_size.
  destruct E as [E|[E|[E|E]]]; rewrite E; cbn [Z.eqb Pos.eqb].
  - rewrite get_im_1_spec by (try exact F; try exact L; exact N).
    destruct (Nat.ltb_spec (length d) 32) as [S1|S1]; [|destruct (Nat.ltb_spec (length d) 54) as [S2|S2]]; cbn [obind r_res is_ok andb r_pos].
    + exists m, (Some (write_error err_length)). split; [destruct m; reflexivity|]. split; [exact M'|]. split; [split; [discriminate|lia]|]. repeat split; auto; discriminate.
    + eexists _, _. split; [reflexivity|]. split; [repeat split; cbn [i_fun i_loc i_date i_desc i_sig]; try apply L; try apply Da; try apply De; try exact Si; apply (terminated_app 32); rewrite firstn_length; lia|].
      split; [split; [discriminate|lia]|]. split; [discriminate|]. split; [|intros _ [X|[X|X]]; exfalso; [unfold k in E; lia|lia|rewrite E in B; congruence]].
      intros j J Nj. unfold im_data. cbn [i_fun i_loc i_date i_desc i_sig]. destruct (Z.eqb_spec j 1); [lia|]. reflexivity.
    + destruct (Z.eqb_spec 54 (Z.of_nat (length d))) as [S3|S3].
      * eexists _, _. split; [reflexivity|]. split; [repeat split; cbn [i_fun i_loc i_date i_desc i_sig]; try apply Da; try apply De; try exact Si; [apply (terminated_app 32)|apply (terminated_app 32)|apply (terminated_app 22)|apply (terminated_app 22)]; rewrite ?firstn_length, ?skipn_length; lia|].
        split; [split; [intros _; lia|reflexivity]|]. split; [|split].
        -- intros _ [X|X]; [unfold k in E; lia|]. unfold im_data. cbn [Z.eqb Pos.eqb i_fun i_loc].
           rewrite <- (firstn_skipn 32 d) in X. rewrite (firstn_all2 (skipn 32 d)) by (rewrite skipn_length; lia).
           rewrite !text_written; [apply firstn_skipn|rewrite skipn_length; lia| |rewrite firstn_length; lia|]; intros Y; apply X; apply in_app_iff; auto.
        -- intros j J Nj. unfold im_data. cbn [i_fun i_loc i_date i_desc i_sig]. destruct (Z.eqb_spec j 1); [lia|]. reflexivity.
        -- intros X. exfalso. apply X. reflexivity.
      * eexists _, _. split; [reflexivity|]. split; [repeat split; cbn [i_fun i_loc i_date i_desc i_sig]; try apply Da; try apply De; try exact Si; [apply (terminated_app 32)|apply (terminated_app 32)|apply (terminated_app 22)|apply (terminated_app 22)]; rewrite ?firstn_length, ?skipn_length; lia|].
        split; [split; [discriminate|lia]|]. split; [discriminate|]. split; [|intros _ [X|[X|X]]; exfalso; [unfold k in E; lia|lia|rewrite E in B; congruence]].
        intros j J Nj. unfold im_data. cbn [i_fun i_loc i_date i_desc i_sig]. destruct (Z.eqb_spec j 1); [lia|]. reflexivity.
  - destruct (Z.eqb_spec (Z.of_nat (length d)) 16) as [S3|S3].
    + eexists _, _. split; [reflexivity|]. split; [repeat split; cbn [i_fun i_loc i_date i_desc i_sig]; try apply F; try apply L; try apply De; try exact Si; apply (terminated_app 16); lia|].
      split; [split; [intros _; lia|reflexivity]|]. split; [|split].
      * intros _ [X|X]; [unfold k in E; lia|]. unfold im_data. cbn [Z.eqb Pos.eqb i_date]. apply text_written; [lia|exact X].
      * intros j J Nj. unfold im_data. cbn [i_fun i_loc i_date i_desc i_sig]. destruct (Z.eqb_spec j 1); [reflexivity|]. destruct (Z.eqb_spec j 2); [lia|]. reflexivity.
      * intros X. exfalso. apply X. reflexivity.
    + eexists _, _. split; [reflexivity|]. split; [exact M'|]. split; [split; [discriminate|lia]|]. repeat split; auto; discriminate.
  - destruct (Z.eqb_spec (Z.of_nat (length d)) 54) as [S3|S3].
    + eexists _, _. split; [reflexivity|]. split; [repeat split; cbn [i_fun i_loc i_date i_desc i_sig]; try apply F; try apply L; try apply Da; try exact Si; apply (terminated_app 54); lia|].
      split; [split; [intros _; lia|reflexivity]|]. split; [|split].
      * intros _ [X|X]; [unfold k in E; lia|]. unfold im_data. cbn [Z.eqb Pos.eqb i_desc]. apply text_written; [lia|exact X].
      * intros j J Nj. unfold im_data. cbn [i_fun i_loc i_date i_desc i_sig]. destruct (Z.eqb_spec j 1); [reflexivity|]. destruct (Z.eqb_spec j 2); [reflexivity|].
        destruct (Z.eqb_spec j 3); [lia|]. reflexivity.
      * intros X. exfalso. apply X. reflexivity.
    + eexists _, _. split; [reflexivity|]. split; [exact M'|]. split; [split; [discriminate|lia]|]. repeat split; auto; discriminate.
  - destruct (Z.eqb_spec (Z.of_nat (length d)) 54) as [S3|S3].
    + eexists _, _. split; [reflexivity|]. split; [repeat split; cbn [i_fun i_loc i_date i_desc i_sig]; try apply F; try apply L; try apply Da; try apply De; lia|].
      split; [split; [intros _; lia|reflexivity]|]. split; [|split].
      * intros _ _. reflexivity.
      * intros j J Nj. unfold im_data. cbn [i_fun i_loc i_date i_desc i_sig]. destruct (Z.eqb_spec j 1); [reflexivity|]. destruct (Z.eqb_spec j 2); [reflexivity|].
        destruct (Z.eqb_spec j 3); [reflexivity|]. lia.
      * intros X. exfalso. apply X. reflexivity.
    + eexists _, _. split; [reflexivity|]. split; [exact M'|]. split; [split; [discriminate|lia]|]. repeat split; auto; discriminate.
Qed.

(** A write is accepted exactly if the record is one of I&M1 to I&M4, supported, and has
    its size.  In particular I&M0 can never be written. *)
Theorem C108_accepted : forall sup m ix d, 0 <= sup -> im_ok m -> 45040 <= ix <= 45055 -> Z.of_nat (length d) < 65536 ->
  exists m' r, write_im sup m ix d = Ok (m', r) /\ im_ok m' /\ (r = None <-> acceptable sup ix d).
Proof.
  intros sup m ix d A B C D. destruct (write_im_all sup m ix d A B C D) as (m' & r & E & O & R & _). exists m', r. auto.
Qed.
Print Assumptions C108_accepted.

(** Accepted or not, a write leaves the other records as they are. *)
Theorem C108_others : forall sup m ix d m' r k, 0 <= sup -> im_ok m -> 45040 <= ix <= 45055 -> Z.of_nat (length d) < 65536 ->
  write_im sup m ix d = Ok (m', r) -> 1 <= k <= 4 -> 45040 + k <> ix -> im_data m' k = im_data m k.
Proof.
  intros sup m ix d m' r k A B C D E K N. destruct (write_im_all sup m ix d A B C D) as (m1 & r1 & E1 & _ & _ & _ & R & _).
  rewrite E in E1. injection E1 as -> ->. apply R; lia.
Qed.
Print Assumptions C108_others.

(** Full claim: a refused write changes nothing.  Missing: I&M1 with 32 bytes or more,
    if this record is supported. *)
Theorem C108_refused_partial : forall sup m ix d m' e, 0 <= sup -> im_ok m -> 45040 <= ix <= 45055 -> Z.of_nat (length d) < 65536 ->
  write_im sup m ix d = Ok (m', Some e) -> ix <> 45041 \/ (length d < 32)%nat \/ Z.testbit sup 1 = false -> m' = m.
Proof.
  intros sup m ix d m' e A B C D E X. destruct (write_im_all sup m ix d A B C D) as (m1 & r1 & E1 & _ & _ & _ & _ & R).
  rewrite E in E1. injection E1 as -> <-. apply R; [discriminate|exact X].
Qed.
Print Assumptions C108_refused_partial.

(** A write of I&M1 with a wrong length is refused and changes the record all the same. *)
Theorem C108_refused_refuted : exists sup m d m' e, im_ok m /\
  write_im sup m 45041 d = Ok (m', Some e) /\ im_data m' 1 <> im_data m 1.
Proof.
  exists 30, clear_im, (repeat 65 40). eexists _, _. split; [repeat split; reflexivity|]. split; [reflexivity|]. discriminate.
Qed.
Print Assumptions C108_refused_refuted.

(** Data with a zero byte are accepted and read back differently. *)
Theorem C108_zero_refuted : exists sup m d m', im_ok m /\
  write_im sup m 45042 d = Ok (m', None) /\ im_data m' 2 <> d.
Proof.
  exists 30, clear_im, (65 :: 0 :: repeat 66 14). eexists. split; [repeat split; reflexivity|]. split; [reflexivity|]. discriminate.
Qed.
Print Assumptions C108_zero_refuted.

(** Histories: what record [k] holds according to the writes of the controller. *)
Fixpoint last_written (sup k : Z) (h : list fev) (d0 : list Z) : list Z :=
  match h with
  | [] => d0
  | WriteRec ix d _ :: h =>
    last_written sup k h (if (ix =? 45040 + k) && Z.testbit sup k && (length d =? rec_size k)%nat then d else d0)
  | _ :: h => last_written sup k h d0
  end.
(** Events of the theorem: writes to I&M records whose file could be stored, restarts and
    the saving job.  Left out: wrong lengths of I&M1 and zero bytes in strings (see the
    refutations), the location set by SNMP and the reset to factory settings. *)
Definition usual (sup : Z) (e : fev) : Prop :=
  match e with
  | WriteRec ix d ok => ok = true /\ 45040 <= ix <= 45055 /\ Z.of_nat (length d) < 65536 /\ (ix = 45044 \/ ~ In 0 d) /\
      (ix = 45041 -> (length d < 32)%nat \/ length d = 54%nat)
  | SetLoc _ | ClearAll => False
  | SaveJob _ | PowerUp _ => True
  end.

(** Full claim: the same for all histories.  What is missing is said at [usual]. *)
Theorem C108_history_partial : forall sup def s h k, 0 <= sup -> im_ok (s_im s) -> s_file s = Some (s_im s) ->
  Forall (usual sup) h -> 1 <= k <= 4 ->
  exists s', frun sup def s h = Ok s' /\ im_ok (s_im s') /\ s_file s' = Some (s_im s') /\
  im_data (s_im s') k = last_written sup k h (im_data (s_im s) k).
Proof.
  intros sup def s h k S0 O Fi U K. revert s O Fi. induction U as [|e h Ue U IH]; intros s O Fi.
  { exists s. repeat split; auto; apply O. }
  destruct e as [ix d ok|l| |ok|ok]; cbn [usual] in Ue; try contradiction; cbn [frun fstep last_written].
  - destruct Ue as (-> & I & N & Z0 & W).
    destruct (write_im_all sup (s_im s) ix d S0 O I N) as (m' & r & E & O' & R & D & Ot & Un). rewrite E. cbn [obind].
    set (s1 := match r with None => save_im true (mkFst m' (s_file s)) | Some _ => mkFst m' (s_file s) end).
    assert (X : im_ok (s_im s1) /\ s_file s1 = Some (s_im s1) /\ im_data (s_im s1) k =
      (if (ix =? 45040 + k) && Z.testbit sup k && (length d =? rec_size k)%nat then d else im_data (s_im s) k)).
    { assert (Mm : s_im s1 = m') by (unfold s1; destruct r; reflexivity). rewrite Mm. split; [exact O'|]. split.
      - unfold s1. destruct r; [|reflexivity]. cbn [s_file]. rewrite Fi. f_equal. symmetry. apply Un; [discriminate|].
        destruct (Z.eq_dec ix 45041) as [Ei|Ei]; [|left; exact Ei]. right. destruct (W Ei) as [L|L]; [left; exact L|]. right.
        destruct (Z.testbit sup 1) eqn:T; [|reflexivity]. exfalso.
        assert (A : acceptable sup ix d) by (unfold acceptable; subst ix; repeat split; try lia; [exact T|exact L]). apply R in A. discriminate.
      - destruct (Z.eqb_spec ix (45040 + k)) as [Ei|Ei]; cbn [andb].
        2:{ apply Ot; lia. }
        destruct (Z.testbit sup k) eqn:T; cbn [andb].
        + destruct (Nat.eqb_spec (length d) (rec_size k)) as [L|L].
          * replace k with (ix - 45040) by lia. apply D; [|exact Z0]. apply R. unfold acceptable. replace (ix - 45040) with k by lia. auto.
          * destruct r as [e|]; [|exfalso; apply L; replace k with (ix - 45040) by lia; apply R; reflexivity].
            rewrite Un; [reflexivity|discriminate|]. destruct (Z.eq_dec ix 45041) as [E1|E1]; [|left; exact E1]. right. left.
            destruct (W E1) as [Y|Y]; [exact Y|]. exfalso. apply L. rewrite Y. unfold rec_size. destruct (Z.eqb_spec k 2); [lia|reflexivity].
        + destruct r as [e|].
          * rewrite Un; [reflexivity|discriminate|]. destruct (Z.eq_dec ix 45041) as [E1|E1]; [|left; exact E1]. right. right.
            replace 1 with k by lia. exact T.
          * exfalso. destruct R as [R _]. destruct (R eq_refl) as (_ & Y & _). replace (ix - 45040) with k in Y by lia. congruence. }
    destruct X as (X1 & X2 & X3). destruct (IH s1 X1 X2) as (s' & R1 & R2 & R3 & R4).
    exists s'. split; [unfold s1 in R1; destruct r; exact R1|]. split; [exact R2|]. split; [exact R3|]. rewrite R4, X3. reflexivity.
  - cbn [obind]. destruct (IH (save_im ok s)) as (s' & R1 & R2 & R3 & R4); [unfold save_im; destruct ok; exact O|unfold save_im; destruct ok; [reflexivity|exact Fi]|].
    exists s'. split; [exact R1|]. split; [exact R2|]. split; [exact R3|]. rewrite R4. unfold save_im. destruct ok; reflexivity.
  - cbn [obind]. rewrite Fi. destruct (IH (save_im ok (mkFst (s_im s) (Some (s_im s))))) as (s' & R1 & R2 & R3 & R4);
      [unfold save_im; destruct ok; exact O|unfold save_im; destruct ok; reflexivity|].
    exists s'. split; [exact R1|]. split; [exact R2|]. split; [exact R3|]. rewrite R4. unfold save_im. destruct ok; reflexivity.
Qed.
Print Assumptions C108_history_partial.

(** The data of a restart, a write of I&M2 with the wrong length, a write of I&M4 and a
    restart: the hypotheses are met and I&M4 holds the data written. *)
Example C108_example :
  let h := [PowerUp true; WriteRec 45042 (repeat 65 15) true; WriteRec 45044 (repeat 0 53 ++ [7]) true; PowerUp false] in
  Forall (usual 30) h /\ im_ok clear_im /\
  exists s, frun 30 clear_im (mkFst clear_im (Some clear_im)) h = Ok s /\ i_sig (s_im s) = repeat 0 53 ++ [7] /\ i_date (s_im s) = i_date clear_im.
Proof.
  cbv zeta. split; [|split; [repeat split; reflexivity|]].
  - assert (N : ~ In 0 (repeat 65 15)) by (cbn; intuition lia).
    constructor; [exact I|]. constructor; [|constructor; [|constructor; [exact I|constructor]]]; cbn [usual];
      (split; [reflexivity|]); (split; [lia|]); (split; [cbn [length repeat app]; lia|]); (split; [auto|]); intros; lia.
  - eexists. split; [reflexivity|]. split; reflexivity.
Qed.
Print Assumptions C108_example.

(** * All histories *)

(** Specification: contents of the records in use, and of those stored. *)
Definition recs := Z -> list Z.
Definition put_rec (c : recs) (k : Z) (d : list Z) : recs := fun j => if j =? k then d else c j.
Definition blank : recs := fun k => if k =? 4 then repeat 0 54 else repeat 32 (rec_size k).
Definition spec_step (sup : Z) (s : recs * recs) (e : fev) : recs * recs :=
  let '(cur, file) := s in
  match e with
  | WriteRec ix d stored =>
    let k := ix - 45040 in
    if (1 <=? k) && (k <=? 4) && Z.testbit sup k && (length d =? rec_size k)%nat
    then let c := put_rec cur k d in (c, if stored then c else file) else (cur, file)
  | SetLoc l => (put_rec cur 1 (firstn 32 (cur 1) ++ firstn 22 (before_nul l ++ repeat 32 22)), file)
  | ClearAll => (blank, file)
  | SaveJob stored => (cur, if stored then cur else file)
  | PowerUp _ => (file, file)
  end.
Definition spec_run (sup : Z) (s : recs * recs) (h : list fev) : recs * recs := fold_left (spec_step sup) h s.

(** Left out: wrong lengths of I&M1 and zero bytes in strings (see the refutations). *)
Definition plain (e : fev) : Prop :=
  match e with
  | WriteRec ix d _ => 45040 <= ix <= 45055 /\ Z.of_nat (length d) < 65536 /\ (ix = 45044 \/ ~ In 0 d) /\
      (ix = 45041 -> (length d < 32)%nat \/ length d = 54%nat)
  | _ => True
  end.

Definition holds (m : im) (c : recs) : Prop := im_ok m /\ forall k, 1 <= k <= 4 -> im_data m k = c k.

Lemma before_nul_in : forall a, ~ In 0 (before_nul a).
Proof. induction a as [|x a IH]; cbn [before_nul]; [intros []|]. destruct (Z.eqb_spec x 0); [intros []|]. intros [E|E]; [congruence|exact (IH E)]. Qed.
Lemma in_firstn_z : forall n (a : list Z) x, In x (firstn n a) -> In x a.
Proof. intros n a x H. rewrite <- (firstn_skipn n a). apply in_or_app. left. exact H. Qed.

Lemma set_location_holds : forall m c l, holds m c ->
  holds (set_location m l) (put_rec c 1 (firstn 32 (c 1) ++ firstn 22 (before_nul l ++ repeat 32 22))).
Proof.
  intros m c l ((F & L & Da & De & Si) & H). set (t := firstn 22 (before_nul l ++ repeat 32 22)).
  assert (Lt : length t = 22%nat) by (unfold t; rewrite firstn_length, app_length, repeat_length; lia).
  assert (N0 : ~ In 0 t).
  { intros X. unfold t in X. apply in_firstn_z in X. apply in_app_or in X. destruct X as [X|X]; [exact (before_nul_in _ X)|].
    apply repeat_spec in X. discriminate. }
  split.
  - unfold im_ok, set_location, padded22. cbn [i_fun i_loc i_date i_desc i_sig]. fold t. split; [exact F|]. split; [|auto].
    split; [rewrite app_length, Lt; reflexivity|]. rewrite app_nth2 by lia. rewrite Lt. reflexivity.
  - intros k K. unfold put_rec. destruct (Z.eqb_spec k 1) as [->|Nk].
    + unfold im_data, set_location, padded22. cbn [Z.eqb Pos.eqb i_fun i_loc]. fold t. rewrite text_written by assumption.
      f_equal. rewrite <- (H 1) by lia. unfold im_data. cbn [Z.eqb Pos.eqb]. rewrite firstn_app, text_length by exact F. rewrite Nat.sub_diag, firstn_O.
      rewrite firstn_all2 by (rewrite text_length by exact F; lia). rewrite app_nil_r. reflexivity.
    + rewrite <- H by exact K. unfold im_data, set_location. destruct (Z.eqb_spec k 1); [contradiction|]. reflexivity.
Qed.

Lemma clear_holds : holds clear_im blank.
Proof.
  split; [unfold im_ok, terminated; cbn; tauto|]. intros k K. assert (E : k = 1 \/ k = 2 \/ k = 3 \/ k = 4) by lia.
  destruct E as [->|[->|[->| ->]]]; reflexivity.
Qed.

Lemma write_holds : forall sup m c ix d m' r, 0 <= sup -> holds m c -> 45040 <= ix <= 45055 -> Z.of_nat (length d) < 65536 ->
  (ix = 45044 \/ ~ In 0 d) -> (ix = 45041 -> (length d < 32)%nat \/ length d = 54%nat) ->
  write_im sup m ix d = Ok (m', r) ->
  let k := ix - 45040 in
  if (1 <=? k) && (k <=? 4) && Z.testbit sup k && (length d =? rec_size k)%nat then r = None /\ holds m' (put_rec c k d) else r <> None /\ m' = m.
Proof.
  intros sup m c ix d m' r S0 (O & H) I N Z0 W E k.
  destruct (write_im_all sup m ix d S0 O I N) as (m1 & r1 & E1 & O' & R & D & Ot & Un). rewrite E in E1. injection E1 as <- <-.
  assert (T : (1 <=? k) && (k <=? 4) && Z.testbit sup k && (length d =? rec_size k)%nat = true <-> acceptable sup ix d).
  { unfold acceptable. fold k. rewrite !andb_true_iff, !Z.leb_le, Nat.eqb_eq. tauto. }
  destruct ((1 <=? k) && (k <=? 4) && Z.testbit sup k && (length d =? rec_size k)%nat).
  - assert (A : acceptable sup ix d) by (apply T; reflexivity). apply R in A. split; [exact A|]. split; [exact O'|].
    intros j J. unfold put_rec. destruct (Z.eqb_spec j k) as [->|Nj]; [apply D; assumption|]. rewrite Ot by assumption. apply H. exact J.
  - assert (A : r <> None) by (intros X; apply R in X; apply T in X; discriminate). split; [exact A|]. apply Un; [exact A|].
    destruct (Z.eq_dec ix 45041) as [Ei|Ei]; [|left; exact Ei]. right. destruct (W Ei) as [L|L]; [left; exact L|]. right.
    destruct (Z.testbit sup 1) eqn:T1; [|reflexivity]. exfalso. apply A. apply R. unfold acceptable. subst ix. repeat split; try lia; [exact T1|exact L].
Qed.

(** Full claim: the same for all histories.  What is missing is said at [plain].  The
    specification shows when data are lost: changes which the background job has not
    stored at the restart. *)
Theorem C108_all_histories_partial : forall sup def h s c f, 0 <= sup -> Forall plain h ->
  holds (s_im s) c -> (exists m, s_file s = Some m /\ holds m f) ->
  exists s', frun sup def s h = Ok s' /\ holds (s_im s') (fst (spec_run sup (c, f) h)) /\
  exists m, s_file s' = Some m /\ holds m (snd (spec_run sup (c, f) h)).
Proof.
  intros sup def h s c f S0 U. revert s c f. induction U as [|e h Ue U IH]; intros s c f C F.
  { exists s. split; [reflexivity|]. split; [exact C|exact F]. }
  unfold spec_run. cbn [fold_left]. fold (spec_run sup (spec_step sup (c, f) e) h).
  assert (X : exists s1, fstep sup def s e = Ok s1 /\ holds (s_im s1) (fst (spec_step sup (c, f) e)) /\
    exists m, s_file s1 = Some m /\ holds m (snd (spec_step sup (c, f) e))).
  { destruct e as [ix d ok|l| |ok|ok]; cbn [fstep spec_step].
    - destruct Ue as (I & N & Z0 & W). destruct (write_im_all sup (s_im s) ix d S0 (proj1 C) I N) as (m' & r & E & _). rewrite E. cbn [obind].
      assert (Y := write_holds sup (s_im s) c ix d m' r S0 C I N Z0 W E). cbv zeta in Y |- *.
      destruct ((1 <=? ix - 45040) && (ix - 45040 <=? 4) && Z.testbit sup (ix - 45040) && (length d =? rec_size (ix - 45040))%nat); cbn [fst snd].
      + destruct Y as [-> Y]. eexists. split; [reflexivity|]. unfold save_im. destruct ok; cbn [s_im s_file].
        * split; [exact Y|]. exists m'. split; [reflexivity|exact Y].
        * split; [exact Y|exact F].
      + destruct Y as [Y ->]. destruct r as [r|]; [|congruence]. eexists. split; [reflexivity|]. split; [exact C|exact F].
    - eexists. split; [reflexivity|]. split; [apply set_location_holds; exact C|exact F].
    - eexists. split; [reflexivity|]. split; [apply clear_holds|exact F].
    - eexists. split; [reflexivity|]. unfold save_im. destruct ok; cbn [s_im s_file fst snd]; (split; [exact C|]); [exists (s_im s); split; [reflexivity|exact C]|exact F].
    - destruct F as (m & Fm & Hm). rewrite Fm. eexists. split; [reflexivity|]. unfold save_im. cbn [fst snd]. destruct ok; cbn [s_im s_file];
        (split; [exact Hm|exists m; split; [reflexivity|exact Hm]]). }
  destruct X as (s1 & E1 & C1 & F1). cbn [frun]. rewrite E1. cbn [obind].
  destruct (spec_step sup (c, f) e) as [c1 f1]. cbn [fst snd] in *. apply IH; assumption.
Qed.
Print Assumptions C108_all_histories_partial.

(** A location set over SNMP, a restart before it is stored, then one that is stored. *)
Example C108_all_example :
  let h := [SetLoc [72]; PowerUp true; SetLoc [73]; SaveJob true; ClearAll; PowerUp true] in
  Forall plain h /\ holds clear_im blank /\
  fst (spec_run 30 (blank, blank) h) 1 = repeat 32 32 ++ [73] ++ repeat 32 21.
Proof.
  split; [repeat constructor|]. split; [apply clear_holds|reflexivity].
Qed.
