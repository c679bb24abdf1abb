(** Diagnosis records (C117). *)
From Coq Require Import List ZArith Arith Bool Lia Sorted.
From Verif Require Import Base BlockModel BlockReadLemmas BlockWriteProps IdentModel IdentProps DiffModel DiffProps DiffBlockProps IdentReadModel IdentReadProps.
From Verif Require Import DiagModel DiagSpec DiagInv DiagSteps DiagProps DiagReportProps DiagReadModel.
Import ListNotations.
Local Open Scope Z_scope.

(** * Specification *)

(** API, slot and subslot. *)
Definition place : Type := (Z * Z * Z)%type.

(** The numbers are of their types. *)
Definition place_ok (p : place) : Prop := let '(a, s, t) := p in 0 <= a < 4294967296 /\ 0 <= s < 65536 /\ 0 <= t < 65536.

(** What a controller expects in a slot; whether the module and a submodule are so. *)
Definition expects (l : list capi) (a s : Z) : option cmod :=
  match find (fun x : capi => fst x =? a) l with None => None | Some x => find (fun m : cmod => fst (fst m) =? s) (snd x) end.
Definition module_is (d : dev) (a s id : Z) : bool := match mod_at d a s with Some k => k =? id | None => false end.
Definition as_expected (d : dev) (a s : Z) (e : csub) : bool := match sub_in d a s (fst e) with Some z => rs_ident z =? snd e | None => false end.

(** The subslots of a module that are plugged; those that are plugged as expected. *)
Definition row_places (w : row) : list place := map (fun z => (w_api w, w_slot w, rs_num z)) (w_subs w).
Definition in_module (d : dev) (a : Z) (m : cmod) : list place :=
  let '(s, id, l) := m in if module_is d a s id then map (fun e => (a, s, fst e)) (filter (as_expected d a s) l) else [].

(** The subslots a record is about: the high byte of the index names the part of the
    device, [e] is what the controller of the connection expects. *)
Definition places (d : dev) (e : option (list capi)) (a s t idx : Z) : list place :=
  let part := idx / 256 in
  let expected := match e with None => None | Some l => expects l a s end in
  if part =? 128 (* 0x80: subslot *) then
    match sub_in d a s t with
    | None => []
    | Some z =>
      match expected with
      | None => [(a, s, t)]
      | Some (_, id, subs) =>
        match find (fun e : csub => fst e =? t) subs with
        | None => [(a, s, t)]
        | Some e => if module_is d a s id && (rs_ident z =? snd e) then [(a, s, t)] else []
        end
      end
    end
  else if part =? 192 (* 0xC0: slot *) then
    match row_at d a s, expected with
    | None, _ => []
    | Some w, None => row_places w
    | Some _, Some m => in_module d a m
    end
  else if part =? 224 (* 0xE0: connection *) then
    match e with None => [] | Some l => flat_map (fun x : capi => flat_map (in_module d (fst x)) (snd x)) l end
  else if part =? 240 (* 0xF0: API *) then flat_map row_places (filter (fun w => w_api w =? a) (table d))
  else (* 0xF8: device *) flat_map row_places (table d).

(** The kind of diagnosis a record is for (pf_types.h:2275-2282): the low byte of the index. *)
Definition maint_is (v : Z) (x : diag) : bool := match x with Manufacturer _ _ => true | Standard _ s => p_maint (ch_props s) =? v end.
Definition kind (idx : Z) (x : diag) : bool :=
  let k := idx mod 256 in
  if k =? 10 then match x with Standard _ _ => true | Manufacturer _ _ => false end
  else if k =? 11 then maint_is 0 x
  else if k =? 12 then true
  else if (k =? 16) || (k =? 18) then maint_is 1 x
  else (* 17, 19 *) maint_is 2 x.

Definition diag_index (idx : Z) : Prop :=
  In (idx / 256) [128; 192; 224; 240] /\ In (idx mod 256) [10; 11; 12; 16; 17; 18; 19] \/ idx = 63500 (* 0xF80C *).

(** The blocks for a subslot: one for each USI, with the diagnoses of that USI and kind,
    unless there is nothing to be written. *)
Definition usis : list Z := map Z.of_nat (seq 1 (Z.to_nat 65534)).
Definition empty (x : diag) : bool := match x with Manufacturer _ [] => true | _ => false end.
Definition dblock : Type := (place * Z * list diag)%type.
Definition block_at (k : diag -> bool) (p : place) (l : list diag) (u : Z) : list dblock :=
  let ds := filter (fun x => k x && (usi_of x =? u)) l in if forallb empty ds then [] else [(p, u, ds)].
Definition blocks (k : diag -> bool) (p : place) (l : list diag) : list dblock := flat_map (block_at k p l) usis.
Definition diag_answer (d : dev) (stored : place -> list diag) (e : option (list capi)) (a s t idx : Z) : list dblock :=
  flat_map (fun p => blocks (kind idx) p (stored p)) (places d e a s t idx).

(** How a controller reads a block: header, API, slot, subslot, channel, properties, USI,
    then diagnoses of the format of the USI up to the end of the block. *)
Definition get_channel_diag (u : Z) : reader diag :=
  rdo c <- get_u16; rdo p <- get_u16; rdo e <- get_u16; rret (Standard u (mkStd c p e 0 0 0)).
Definition get_extended_diag (u : Z) : reader diag :=
  rdo c <- get_u16; rdo p <- get_u16; rdo e <- get_u16; rdo x <- get_u16; rdo v <- get_u32; rret (Standard u (mkStd c p e x v 0)).
Definition get_qualified_diag (u : Z) : reader diag :=
  rdo c <- get_u16; rdo p <- get_u16; rdo e <- get_u16; rdo x <- get_u16; rdo v <- get_u32; rdo q <- get_u32;
  rret (Standard u (mkStd c p e x v q)).
Definition get_diags (u : Z) (n : nat) : reader (list diag) :=
  if u =? 32768 then rlist (get_channel_diag u) (n / 6)
  else if u =? 32770 then rlist (get_extended_diag u) (n / 12)
  else if u =? 32771 then rlist (get_qualified_diag u) (n / 16)
  else rdo l <- rlist get_byte n; rret [Manufacturer u l].
Definition get_dblock : reader (bhead * (place * Z * Z * Z * list diag)) :=
  rdo h <- get_block_header; rdo a <- get_u32; rdo s <- get_u16; rdo t <- get_u16; rdo c <- get_u16; rdo p <- get_u16; rdo u <- get_u16;
  rdo l <- get_diags u (Z.to_nat (b_length h) - 16); rret (h, ((a, s, t), c, p, u, l)).

(** What there is of a diagnosis in the format of its USI. *)
Definition in_format (x : diag) : diag :=
  match x with
  | Standard u s =>
    if u =? 32768 then Standard u (mkStd (ch_nbr s) (ch_props s) (ch_err s) 0 0 0)
    else if u =? 32770 then Standard u (mkStd (ch_nbr s) (ch_props s) (ch_err s) (ext_err s) (add_value s) 0)
    else x
  | Manufacturer _ _ => x
  end.
Definition diag_size (x : diag) : nat :=
  match x with
  | Standard u _ => if u =? 32768 then 6%nat else if u =? 32770 then 12%nat else 16%nat
  | Manufacturer _ l => length l
  end.
Definition dblock_size (b : dblock) : nat := (20 + sum (map diag_size (snd b)))%nat.
(** The summary channel is 0x8000, "appears" (0x0800). *)
Definition told (b : dblock) : bhead * (place * Z * Z * Z * list diag) :=
  let '(p, u, ds) := b in (mkBhead 16 (16 + Z.of_nat (sum (map diag_size ds))) 1 1, (p, 32768, 2048, u, map in_format ds)).

(** [f] appends [n] bytes to the response from which [get] delivers [x]; what is before
    them and behind the buffer is not changed. *)
Definition answered {A} (f : writer) (get : reader A) (x : A) (n : nat) : Prop :=
  forall b len rlen pos, 0 <= pos -> pos + Z.of_nat n <= len <= Z.of_nat (length b) -> len < 65534 ->
  pos + Z.of_nat n <= rlen <= Z.of_nat (length b) -> rlen < 65536 ->
  exists b', f (mkWr (Some b) len pos) = Ok (mkWr (Some b') len (pos + Z.of_nat n)) /\ length b' = length b /\
    firstn (Z.to_nat pos) b' = firstn (Z.to_nat pos) b /\ (forall i, (Z.to_nat len <= i)%nat -> nth i b' 0 = nth i b 0) /\
    get (mkRd (Some b') rlen true POk pos) = Ok (x, mkRd (Some b') rlen true POk (pos + Z.of_nat n)).

(** * Bytes that may be followed by others *)

Definition wenc (f : writer) (bs : list Z) : Prop :=
  forall b len pos, 0 <= pos -> pos + Z.of_nat (length bs) <= len -> len <= Z.of_nat (length b) -> len < 65534 ->
  exists b', f (mkWr (Some b) len pos) = Ok (mkWr (Some b') len (pos + Z.of_nat (length bs))) /\ length b' = length b /\
    firstn (Z.to_nat pos + length bs) b' = firstn (Z.to_nat pos) b ++ bs /\
    (forall i, (Z.to_nat len <= i)%nat -> nth i b' 0 = nth i b 0).

Lemma firstn_nth : forall (b b' : list Z) n, length b' = length b -> (forall i, (i < n)%nat -> nth i b' 0 = nth i b 0) -> firstn n b' = firstn n b.
Proof.
  intros b. induction b as [|x b IH]; intros b' n L H; destruct b' as [|y b']; try discriminate; [reflexivity|]. destruct n as [|n]; [reflexivity|]. cbn [firstn].
  f_equal; [exact (H 0%nat ltac:(lia))|]. apply IH; [cbn [length] in L; lia|]. intros i I. exact (H (S i) ltac:(lia)).
Qed.
Lemma put_at_behind : forall b p bs i, (p + length bs <= i)%nat -> (p <= length b)%nat -> nth i (put_at b p bs) 0 = nth i b 0.
Proof.
  intros b p bs i I L. unfold put_at. assert (Lf : length (firstn p b) = p) by (rewrite firstn_length; lia).
  rewrite app_nth2 by lia. rewrite app_nth2 by lia. rewrite Lf.
  rewrite <- (firstn_skipn (p + length bs) b) at 2. rewrite app_nth2 by (rewrite firstn_length; lia). rewrite firstn_length.
  destruct (Nat.le_ge_cases (p + length bs) (length b)); [f_equal; lia|].
  rewrite !nth_overflow; [reflexivity| |]; rewrite skipn_length; lia.
Qed.
Lemma wenc_enc : forall f bs, enc f bs -> wenc f bs.
Proof.
  intros f bs E b len pos P L M N. exists (put_at b (Z.to_nat pos) bs). split; [apply E; lia|]. split; [apply put_at_length; lia|]. split.
  - unfold put_at. rewrite app_assoc, firstn_app.
    assert (Lf : length (firstn (Z.to_nat pos) b ++ bs) = (Z.to_nat pos + length bs)%nat) by (rewrite app_length, firstn_length; lia).
    rewrite Lf, Nat.sub_diag. cbn [firstn]. rewrite app_nil_r. apply firstn_all2. lia.
  - intros i I. apply put_at_behind; lia.
Qed.
Lemma wenc_none : forall f, no_data f -> wenc f [].
Proof.
  intros f H b len pos P L M N. cbn [length] in *. destruct (H b len pos ltac:(lia) M N) as (b' & E & Q & K). exists b'. rewrite Z.add_0_r, Nat.add_0_r, app_nil_r.
  split; [exact E|]. split; [exact Q|]. split; [|intros i I; apply K; lia]. apply firstn_nth; [exact Q|]. intros i I. apply K. lia.
Qed.
Lemma wenc_seq : forall f g x y, wenc f x -> wenc g y -> wenc (f ;; g) (x ++ y).
Proof.
  intros f g x y F G b len pos P L M N. rewrite app_length in *. destruct (F b len pos P ltac:(lia) M N) as (b1 & E1 & L1 & K1 & B1).
  unfold wseq. rewrite E1. cbn [obind]. destruct (G b1 len (pos + Z.of_nat (length x)) ltac:(lia) ltac:(lia) ltac:(lia) N) as (b2 & E2 & L2 & K2 & B2).
  exists b2. split; [rewrite E2; do 2 f_equal; lia|]. split; [congruence|]. split; [|intros i I; rewrite B2, B1 by exact I; reflexivity].
  replace (Z.to_nat (pos + Z.of_nat (length x))) with (Z.to_nat pos + length x)%nat in K2 by lia. rewrite K1 in K2. rewrite <- app_assoc in K2. rewrite <- K2. f_equal. lia.
Qed.
Lemma wenc_skip : wenc wskip [].
Proof. apply wenc_enc, enc_skip. Qed.
Lemma wenc_ext : forall f g bs, (forall w, f w = g w) -> wenc g bs -> wenc f bs.
Proof. intros f g bs H E b len pos A B C D. rewrite H. apply E; assumption. Qed.
Lemma wenc_all : forall A (f : A -> writer) (e : A -> list Z) l, (forall x, In x l -> wenc (f x) (e x)) -> wenc (put_all f l) (flat_map e l).
Proof.
  intros A f e l. induction l as [|x l IH]; intros H; cbn [put_all flat_map]; [exact wenc_skip|].
  apply wenc_seq; [apply H; left; reflexivity|apply IH; intros y I; apply H; right; exact I].
Qed.
Lemma answered_of : forall A f (get : reader A) x bs, wenc f bs -> dec true true get bs x -> answered f get x (length bs).
Proof.
  intros A f get x bs W D b len rlen pos P L N R RN. destruct (W b len pos P ltac:(lia) ltac:(lia) N) as (b' & E & Q & K & B). exists b'.
  assert (Lf : length (firstn (Z.to_nat pos) b) = Z.to_nat pos) by (rewrite firstn_length; lia).
  split; [exact E|]. split; [exact Q|].
  assert (K0 : firstn (Z.to_nat pos) b' = firstn (Z.to_nat pos) b).
  { apply (f_equal (firstn (Z.to_nat pos))) in K. rewrite firstn_firstn, Nat.min_l in K by lia. rewrite K, firstn_app, Lf, Nat.sub_diag. cbn [firstn].
    rewrite app_nil_r. apply firstn_all2. lia. }
  split; [exact K0|]. split; [exact B|].
  pose proof (D (firstn (Z.to_nat pos) b) (skipn (Z.to_nat pos + length bs) b') rlen) as H.
  assert (WH : firstn (Z.to_nat pos) b ++ bs ++ skipn (Z.to_nat pos + length bs) b' = b') by (rewrite app_assoc, <- K; apply firstn_skipn).
  rewrite WH, Lf in H. rewrite Z2Nat.id in H by lia. rewrite H; [|lia|lia|lia]. do 2 f_equal. f_equal. lia.
Qed.

(** * One diagnosis *)

(** The numbers of a diagnosis fit their fields. *)
Definition diag_typed (x : diag) : Prop :=
  match x with
  | Standard u s => In u [32768; 32770; 32771] /\ 0 <= ch_nbr s < 65536 /\ 0 <= ch_props s < 65536 /\ 0 <= ch_err s < 65536 /\
      0 <= ext_err s < 65536 /\ 0 <= add_value s < 4294967296 /\ 0 <= qualifier s < 4294967296
  | Manufacturer u _ => 0 <= u < 32768
  end.
Definition ediag (x : diag) : list Z :=
  match x with
  | Standard u s =>
    e16 true (ch_nbr s) ++ e16 true (ch_props s) ++ e16 true (ch_err s) ++
    (if u =? 32768 then [] else e16 true (ext_err s) ++ e32 true (add_value s) ++ (if u =? 32770 then [] else e32 true (qualifier s)))
  | Manufacturer _ l => l
  end.
Lemma ediag_length : forall x, length (ediag x) = diag_size x.
Proof.
  intros [u s|u l]; [|reflexivity]. unfold ediag, diag_size. rewrite !app_length, !e16_length.
  destruct (u =? 32768); [reflexivity|]. rewrite !app_length, e16_length, e32_length. destruct (u =? 32770); [reflexivity|]. rewrite e32_length. reflexivity.
Qed.
Lemma enc_item : forall i, diag_typed (content i) -> enc (put_diag_item true i false) (ediag (content i)).
Proof.
  intros i. unfold content, put_diag_item, usi_channel, usi_extended, usi_qualified. cbv zeta.
  change (ediag _) with ([] ++ ediag (if d_usi i <? 32768 then Manufacturer (d_usi i) (d_data i) else Standard (d_usi i) (d_std i))).
  intros T. apply enc_seq; [exact enc_skip|]. destruct (Z.ltb_spec (d_usi i) 32768) as [H|H].
  - destruct (Z.eqb_spec (d_usi i) 32768); [lia|]. destruct (Z.eqb_spec (d_usi i) 32770); [lia|]. destruct (Z.eqb_spec (d_usi i) 32771); [lia|]. apply enc_mem.
  - destruct T as (U & A & B & C & D & E & F). unfold ediag.
    destruct U as [U|[U|[U|[]]]]; rewrite <- U in *; cbn [Z.eqb Pos.eqb].
    + rewrite app_nil_r. apply enc_seq; [apply enc_u16; exact A|]. apply enc_seq; [apply enc_u16; exact B|apply enc_u16; exact C].
    + rewrite app_nil_r. apply enc_seq; [apply enc_u16; exact A|]. apply enc_seq; [apply enc_u16; exact B|]. apply enc_seq; [apply enc_u16; exact C|].
      apply enc_seq; [apply enc_u16; exact D|apply enc_u32; exact E].
    + apply enc_seq; [apply enc_u16; exact A|]. apply enc_seq; [apply enc_u16; exact B|]. apply enc_seq; [apply enc_u16; exact C|].
      apply enc_seq; [apply enc_u16; exact D|]. apply enc_seq; [apply enc_u32; exact E|apply enc_u32; exact F].
Qed.

(** The diagnoses of one USI. *)
Definition same_usi (u : Z) (ds : list diag) : Prop :=
  (forall x, In x ds -> usi_of x = u /\ diag_typed x) /\ (u < 32768 -> (length ds <= 1)%nat).

Lemma flat_fixed : forall n ds, (forall x, In x ds -> length (ediag x) = n) -> length (flat_map ediag ds) = (length ds * n)%nat.
Proof.
  intros n ds. induction ds as [|x ds IH]; intros H; [reflexivity|]. cbn [flat_map length]. rewrite app_length, IH by (intros y I; apply H; right; exact I).
  rewrite (H x (or_introl eq_refl)). lia.
Qed.
Lemma dec_fixed : forall (m : reader diag) n ds, (0 < n)%nat -> (forall x, In x ds -> length (ediag x) = n) ->
  (forall x, In x ds -> dec true true m (ediag x) (in_format x)) ->
  dec true true (rlist m (length (flat_map ediag ds) / n)) (flat_map ediag ds) (map in_format ds).
Proof. intros m n ds N H D. rewrite (flat_fixed n ds H), Nat.div_mul by lia. apply dec_list. exact D. Qed.
Lemma dec_bytes : forall l, dec true true (rlist get_byte (length l)) l l.
Proof.
  intros l. pose proof (dec_list Z Z true get_byte (fun x => [x]) (fun x => x) l (fun x _ => dec_byte true x)) as H.
  rewrite map_id in H. replace (flat_map (fun x : Z => [x]) l) with l in H; [exact H|]. clear H. induction l as [|x l IH]; [reflexivity|]. cbn [flat_map app]. rewrite <- IH. reflexivity.
Qed.

Lemma dec_diags : forall u ds, same_usi u ds -> flat_map ediag ds <> [] ->
  dec true true (get_diags u (length (flat_map ediag ds))) (flat_map ediag ds) (map in_format ds).
Proof.
  intros u ds (H & S) NE. unfold get_diags.
  assert (ST : forall x, In x ds -> 32768 <= u -> exists s, x = Standard u s /\ In u [32768; 32770; 32771]).
  { intros x I U. destruct (H x I) as [E T]. destruct x as [v s|v l]; cbn [usi_of] in E; subst v; [exists s; split; [reflexivity|exact (proj1 T)]|cbn [diag_typed] in T; lia]. }
  destruct (Z.eqb_spec u 32768) as [E1|E1].
  { subst u. apply dec_fixed; [lia| |].
    - intros x I. destruct (ST x I ltac:(lia)) as (s & -> & _). rewrite ediag_length. reflexivity.
    - intros x I. destruct (H x I) as [_ T]. destruct (ST x I ltac:(lia)) as (s & -> & _). destruct T as (_ & A & B & C & D & E & F). unfold ediag, in_format, get_channel_diag. cbn [Z.eqb Pos.eqb].
      rewrite app_nil_r. eapply dec_bind; [apply dec_u16; exact A|]. eapply dec_bind; [apply dec_u16; exact B|]. eapply dec_last; [apply dec_u16; exact C|reflexivity]. }
  destruct (Z.eqb_spec u 32770) as [E2|E2].
  { subst u. apply dec_fixed; [lia| |].
    - intros x I. destruct (ST x I ltac:(lia)) as (s & -> & _). rewrite ediag_length. reflexivity.
    - intros x I. destruct (H x I) as [_ T]. destruct (ST x I ltac:(lia)) as (s & -> & _). destruct T as (_ & A & B & C & D & E & F). unfold ediag, in_format, get_extended_diag. cbn [Z.eqb Pos.eqb].
      rewrite app_nil_r. eapply dec_bind; [apply dec_u16; exact A|]. eapply dec_bind; [apply dec_u16; exact B|]. eapply dec_bind; [apply dec_u16; exact C|].
      eapply dec_bind; [apply dec_u16; exact D|]. eapply dec_last; [apply dec_u32; exact E|reflexivity]. }
  destruct (Z.eqb_spec u 32771) as [E3|E3].
  { subst u. apply dec_fixed; [lia| |].
    - intros x I. destruct (ST x I ltac:(lia)) as (s & -> & _). rewrite ediag_length. reflexivity.
    - intros x I. destruct (H x I) as [_ T]. destruct (ST x I ltac:(lia)) as ([c p e y v q] & -> & _). destruct T as (_ & A & B & C & D & E & F). unfold ediag, in_format, get_qualified_diag. cbn [Z.eqb Pos.eqb].
      cbn [ch_nbr ch_props ch_err ext_err add_value qualifier] in *.
      eapply dec_bind; [apply dec_u16; exact A|]. eapply dec_bind; [apply dec_u16; exact B|]. eapply dec_bind; [apply dec_u16; exact C|].
      eapply dec_bind; [apply dec_u16; exact D|]. eapply dec_bind; [apply dec_u32; exact E|]. eapply dec_last; [apply dec_u32; exact F|reflexivity]. }
  destruct (Z.lt_ge_cases u 32768) as [LT|GE].
  - specialize (S LT). destruct ds as [|x [|y ds]]; cbn [length] in S; [contradiction NE; reflexivity| |lia]. destruct (H x (or_introl eq_refl)) as [E T].
    destruct x as [v s|v l]; cbn [usi_of] in E; subst v; [destruct T as ([U|[U|[U|[]]]] & _); lia|]. cbn [flat_map ediag map in_format]. rewrite app_nil_r.
    eapply dec_last; [apply dec_bytes|reflexivity].
  - destruct ds as [|x ds]; [contradiction NE; reflexivity|]. destruct (ST x (or_introl eq_refl) GE) as (s & _ & [U|[U|[U|[]]]]); congruence.
Qed.

(** * One block *)

Definition efixed (p : place) (u : Z) : list Z :=
  let '(a, s, t) := p in e32 true a ++ e16 true s ++ e16 true t ++ e16 true 32768 ++ e16 true 2048 ++ e16 true u.
Definition edblock (b : dblock) : list Z := let '(p, u, ds) := b in eblock_v true 16 1 (efixed p u ++ flat_map ediag ds).
Lemma efixed_length : forall p u, length (efixed p u) = 14%nat.
Proof. intros [[a s] t] u. unfold efixed. rewrite !app_length, e32_length, !e16_length. reflexivity. Qed.
Lemma sizes_bytes : forall ds, length (flat_map ediag ds) = sum (map diag_size ds).
Proof. intros ds. apply sum_map_flat. intros x _. apply ediag_length. Qed.
Lemma edblock_length : forall b, length (edblock b) = dblock_size b.
Proof. intros [[p u] ds]. unfold edblock, eblock_v, dblock_size. cbn [snd]. rewrite !app_length, !e16_length, efixed_length, sizes_bytes. cbn [length]. lia. Qed.

Definition dblock_ok (b : dblock) : Prop :=
  let '(p, u, ds) := b in place_ok p /\ 0 <= u < 65536 /\ same_usi u ds /\ flat_map ediag ds <> [].
Lemma dec_dblock : forall b, dblock_ok b -> dec true true get_dblock (edblock b) (told b).
Proof.
  intros [[[[a s] t] u] ds] ((A & B & C) & U & S & NE).
  assert (G : Z.of_nat (sum (map diag_size ds)) < 65520 -> dec true true get_dblock (edblock ((a, s, t), u, ds)) (told ((a, s, t), u, ds)));
    [|intros pre post len L1 L2 L3; apply G; [rewrite edblock_length in L1; unfold dblock_size in L1; cbn [snd] in L1; lia|assumption..]].
  intros L. unfold get_dblock, edblock, told, eblock_v, efixed.
  assert (EL : length (e32 true a ++ e16 true s ++ e16 true t ++ e16 true 32768 ++ e16 true 2048 ++ e16 true u) = 14%nat)
    by (rewrite !app_length, e32_length, !e16_length; reflexivity).
  rewrite app_length, EL, Nat2Z.inj_add, sizes_bytes. replace (2 + (Z.of_nat 14 + Z.of_nat (sum (map diag_size ds)))) with (16 + Z.of_nat (sum (map diag_size ds))) by lia.
  replace (e16 true 16 ++ e16 true (16 + Z.of_nat (sum (map diag_size ds))) ++ [1; 1] ++
           (e32 true a ++ e16 true s ++ e16 true t ++ e16 true 32768 ++ e16 true 2048 ++ e16 true u) ++ flat_map ediag ds)
    with ((e16 true 16 ++ e16 true (16 + Z.of_nat (sum (map diag_size ds))) ++ [1; 1]) ++
          e32 true a ++ e16 true s ++ e16 true t ++ e16 true 32768 ++ e16 true 2048 ++ e16 true u ++ flat_map ediag ds) by (rewrite <- !app_assoc; reflexivity).
  eapply dec_bind; [apply dec_header; lia|]. eapply dec_bind; [apply dec_u32; exact A|]. eapply dec_bind; [apply dec_u16; exact B|].
  eapply dec_bind; [apply dec_u16; exact C|]. eapply dec_bind; [apply dec_u16; lia|]. eapply dec_bind; [apply dec_u16; lia|]. eapply dec_bind; [apply dec_u16; exact U|].
  cbn [b_length]. replace (Z.to_nat (16 + Z.of_nat (sum (map diag_size ds))) - 16)%nat with (length (flat_map ediag ds)) by (rewrite sizes_bytes; lia).
  eapply dec_last; [apply dec_diags; [exact S|exact NE]|reflexivity].
Qed.

Lemma appears_bits : spec_set sp_appears 0 = 2048.
Proof. vm_compute. reflexivity. Qed.

(** The items of a list that belong to a block. *)
Definition item_in (f : dfilter) (u : Z) (i : ditem) : bool := passes f i && (d_usi i =? u).
Lemma enc_items : forall f u l, (forall i, In i l -> diag_typed (content i)) ->
  enc (put_all (fun i => if passes f i && (d_usi i =? u) then put_diag_item true i false else wskip) l) (flat_map ediag (map content (filter (item_in f u) l))).
Proof.
  intros f u l. induction l as [|i l IH]; intros H; cbn [put_all filter]; [exact enc_skip|]. fold (item_in f u i).
  assert (R : enc (put_all (fun i => if passes f i && (d_usi i =? u) then put_diag_item true i false else wskip) l) (flat_map ediag (map content (filter (item_in f u) l))))
    by (apply IH; intros j J; apply H; right; exact J).
  destruct (item_in f u i); cbn [map flat_map].
  - apply enc_seq; [apply enc_item; apply H; left; reflexivity|exact R].
  - change (flat_map ediag (map content (filter (item_in f u) l))) with ([] ++ flat_map ediag (map content (filter (item_in f u) l))). apply enc_seq; [exact enc_skip|exact R].
Qed.
Definition fixed_part (a s t u : Z) : writer :=
  put_u32 true a ;; put_u16 true s ;; put_u16 true t ;; put_u16 true whole_submodule ;; put_u16 true (spec_set sp_appears 0) ;; put_u16 true u.
Lemma enc_fixed : forall a s t u, place_ok (a, s, t) -> 0 <= u < 65536 -> enc (fixed_part a s t u) (efixed (a, s, t) u).
Proof.
  intros a s t u (A & B & C) U. unfold fixed_part, efixed, whole_submodule. rewrite appears_bits. apply enc_seq; [apply enc_u32; exact A|]. apply enc_seq; [apply enc_u16; exact B|].
  apply enc_seq; [apply enc_u16; exact C|]. apply enc_seq; [apply enc_u16; lia|]. apply enc_seq; [apply enc_u16; lia|apply enc_u16; exact U].
Qed.
Lemma inside_fixed : forall a s t u, stays_inside (fixed_part a s t u).
Proof.
  intros. refine (inside_seq _ _ (inside_u32 _ _) _). refine (inside_seq _ _ (inside_u16 _ _) _). refine (inside_seq _ _ (inside_u16 _ _) _).
  refine (inside_seq _ _ (inside_u16 _ _) _). refine (inside_seq _ _ (inside_u16 _ _) (inside_u16 _ _)).
Qed.
Lemma inside_item : forall i v, stays_inside (put_diag_item true i v).
Proof.
  intros i v. unfold put_diag_item. refine (inside_seq _ _ _ _); [destruct v; [apply inside_u16|exact inside_skip]|].
  destruct (d_usi i =? usi_channel); [|destruct (d_usi i =? usi_extended); [|destruct (d_usi i =? usi_qualified)]]; try apply inside_mem;
    refine (inside_seq _ _ (inside_u16 _ _) _); refine (inside_seq _ _ (inside_u16 _ _) _); try apply inside_u16; refine (inside_seq _ _ (inside_u16 _ _) _);
    refine (inside_seq _ _ (inside_u16 _ _) _); try apply inside_u32. refine (inside_seq _ _ (inside_u32 _ _) (inside_u32 _ _)).
Qed.
Lemma inside_items : forall f u l, stays_inside (put_all (fun i => if passes f i && (d_usi i =? u) then put_diag_item true i false else wskip) l).
Proof. intros f u l. apply inside_all. intros i _. destruct (passes f i && (d_usi i =? u)); [apply inside_item|exact inside_skip]. Qed.

Lemma inside_list : forall f u a s t l, stays_inside (put_diag_list true f u a s t l).
Proof.
  intros f u a s t l. destruct l as [|i l]; [exact inside_skip|]. intros b len pos P L N. unfold put_diag_list. fold (fixed_part a s t u).
  destruct (inside_header true bt_diagnosis 1 b len pos P L N) as (b1 & p1 & E1 & Q1 & L1 & K1). rewrite E1. cbn [obind].
  destruct (inside_fixed a s t u b1 len p1 ltac:(lia) ltac:(lia) N) as (b2 & p2 & E2 & Q2 & L2 & K2). rewrite E2. cbn [obind].
  destruct (inside_items f u (i :: l) b2 len p2 ltac:(lia) ltac:(lia) N) as (b3 & p3 & E3 & Q3 & L3 & K3). rewrite E3. cbn [obind w_pos w_buf w_len].
  destruct (p2 <? p3).
  - destruct (inside_len true pos b3 len p3 ltac:(lia) ltac:(lia) ltac:(lia) N) as (b4 & E4 & L4 & K4). exists b4, p3. split; [exact E4|]. split; [lia|]. split; [congruence|].
    intros j J. rewrite K4, K3, K2, K1 by lia. reflexivity.
  - exists b3, pos. split; [reflexivity|]. split; [lia|]. split; [congruence|]. intros j J. rewrite K3, K2, K1 by lia. reflexivity.
Qed.

Lemma wenc_list : forall f u a s t l, (forall i, In i l -> diag_typed (content i)) -> place_ok (a, s, t) -> 0 <= u < 65536 ->
  let ds := map content (filter (item_in f u) l) in
  wenc (put_diag_list true f u a s t l) (if forallb empty ds then [] else edblock ((a, s, t), u, ds)).
Proof.
  intros f u a s t l T PO U ds. pose proof (enc_items f u l T) as EI. fold ds in EI.
  destruct l as [|i l]; [exact wenc_skip|].
  assert (EM : forallb empty ds = true <-> flat_map ediag ds = []).
  { clear. clearbody ds. induction ds as [|x ds IH]; cbn [forallb flat_map]; [tauto|]. split; intros H.
    - apply andb_prop in H. destruct H as [H1 H2]. apply IH in H2. rewrite H2. destruct x as [v s|v [|y k]]; try discriminate. reflexivity.
    - apply app_eq_nil in H. destruct H as [H1 H2]. apply IH in H2. rewrite H2, andb_true_r. destruct x as [v s|v k]; cbn [ediag] in H1; [|rewrite H1; reflexivity].
      apply (f_equal (@length Z)) in H1. rewrite app_length, e16_length in H1. cbn [length] in H1. lia. }
  destruct (forallb empty ds) eqn:B.
  - pose proof (proj1 EM eq_refl) as Z0. rewrite Z0 in EI. apply wenc_none. intros b len pos P L N. unfold put_diag_list. fold (fixed_part a s t u).
    destruct (inside_header true bt_diagnosis 1 b len pos P L N) as (b1 & p1 & E1 & Q1 & L1 & K1). rewrite E1. cbn [obind].
    destruct (inside_fixed a s t u b1 len p1 ltac:(lia) ltac:(lia) N) as (b2 & p2 & E2 & Q2 & L2 & K2). rewrite E2. cbn [obind].
    rewrite EI by (cbn [length]; lia). cbn [obind w_pos length w_buf w_len]. rewrite Z.add_0_r, Z.ltb_irrefl. eexists. split; [reflexivity|].
    split; [rewrite put_at_length by (cbn [length]; lia); congruence|]. intros j J. unfold put_at. cbn [length app]. rewrite Nat.add_0_r, firstn_skipn. rewrite K2, K1 by lia. reflexivity.
  - assert (NE : (0 < length (flat_map ediag ds))%nat).
    { destruct (flat_map ediag ds) eqn:Q; [|cbn [length]; lia]. pose proof (proj2 EM eq_refl). discriminate. }
    intros b0 len0 pos0 P0 L0 M0 N0.
    assert (SZ : Z.of_nat (length (flat_map ediag ds)) < 65520) by (rewrite edblock_length in L0; unfold dblock_size in L0; cbn [snd] in L0; rewrite <- sizes_bytes in L0; lia).
    revert b0 len0 pos0 P0 L0 M0 N0. change (wenc (put_diag_list true f u a s t (i :: l)) (edblock ((a, s, t), u, ds))).
    apply wenc_enc. intros b len pos P L M N. unfold edblock in L |- *.
    assert (EB : enc (fixed_part a s t u ;; put_all (fun i => if passes f i && (d_usi i =? u) then put_diag_item true i false else wskip) (i :: l))
                     (efixed (a, s, t) u ++ flat_map ediag ds)) by (apply enc_seq; [apply enc_fixed; assumption|exact EI]).
    assert (LB : Z.of_nat (length (efixed (a, s, t) u ++ flat_map ediag ds)) < 65534) by (rewrite app_length, efixed_length; lia).
    rewrite <- (enc_block_v true 16 1 _ _ ltac:(lia) ltac:(unfold byte; lia) LB EB b len pos P L M N).
    unfold put_diag_list, put_block_v, bt_diagnosis. fold (fixed_part a s t u). unfold wseq.
    assert (EH : enc (put_block_header true 16 0 1 1) (e16 true 16 ++ e16 true (0 + 2) ++ [1; 1])) by (apply enc_header; unfold byte in *; lia).
    assert (LH : length (e16 true 16 ++ e16 true (0 + 2) ++ [1; 1]) = 6%nat) by (rewrite !app_length, !e16_length; reflexivity).
    unfold eblock_v in L. rewrite !app_length, !e16_length, efixed_length in L. cbn [length] in L.
    rewrite EH by (rewrite ?LH; lia). cbn [obind]. rewrite LH.
    pose proof (enc_fixed a s t u PO U) as EF.
    assert (Y : fixed_part a s t u (mkWr (Some (put_at b (Z.to_nat pos) (e16 true 16 ++ e16 true (0 + 2) ++ [1; 1]))) len (pos + Z.of_nat 6))
              = Ok (mkWr (Some (put_at (put_at b (Z.to_nat pos) (e16 true 16 ++ e16 true (0 + 2) ++ [1; 1])) (Z.to_nat (pos + Z.of_nat 6)) (efixed (a, s, t) u))) len (pos + Z.of_nat 6 + Z.of_nat 14))).
    { rewrite EF by (rewrite ?efixed_length; try (rewrite put_at_length by lia); lia). rewrite efixed_length. reflexivity. }
    rewrite Y. cbn [obind].
    rewrite EI by (try (rewrite put_at_length by (rewrite ?efixed_length; try (rewrite put_at_length by lia); lia)); try (rewrite put_at_length by lia); lia). cbn [obind w_pos].
    destruct (Z.ltb_spec (pos + Z.of_nat 6 + Z.of_nat 14) (pos + Z.of_nat 6 + Z.of_nat 14 + Z.of_nat (length (flat_map ediag ds)))); [reflexivity|lia].
Qed.

(** * A subslot *)

(** The filters in terms of diagnoses. *)
Definition wanted (f : dfilter) (x : diag) : bool :=
  match f with
  | FaultStd => match x with Standard _ _ => true | Manufacturer _ _ => false end
  | FaultAll => maint_is 0 x
  | FilterAll => true
  | MReq => maint_is 1 x
  | MDem => maint_is 2 x
  end.
Lemma maint_bits : forall p, maint_get p = p_maint p.
Proof. intros p. unfold maint_get, getf, p_maint. rewrite Z.shiftr_land. reflexivity. Qed.
Lemma passes_wanted : forall f i, passes f i = wanted f (content i).
Proof.
  intros f i. unfold passes, wanted, content, usi_channel, m_fault, m_required, m_demanded. rewrite !maint_bits.
  destruct f; destruct (Z.ltb_spec (d_usi i) 32768); cbn [maint_is orb]; try reflexivity; destruct (Z.leb_spec 32768 (d_usi i)); try reflexivity; lia.
Qed.
Lemma filter_content : forall f u l, map content (filter (item_in f u) l) = filter (fun x => wanted f x && (usi_of x =? u)) (map content l).
Proof.
  intros f u l. induction l as [|i l IH]; [reflexivity|]. cbn [filter map]. unfold item_in at 1. rewrite passes_wanted, content_usi.
  destruct (wanted f (content i) && (d_usi i =? u)); cbn [map]; rewrite IH; reflexivity.
Qed.

Lemma flat_sorted : forall A (g : Z -> list A) R us, StronglySorted Z.lt R -> StronglySorted Z.lt us -> incl us R ->
  (forall u, In u R -> ~ In u us -> g u = []) -> flat_map g R = flat_map g us.
Proof.
  intros A g R. induction R as [|r R IH]; intros us SR SU I H.
  - destruct us as [|u us]; [reflexivity|]. destruct (I u (or_introl eq_refl)).
  - apply StronglySorted_inv in SR. destruct SR as [SR FR]. rewrite Forall_forall in FR. cbn [flat_map].
    destruct us as [|v us].
    + rewrite (H r (or_introl eq_refl)) by (intros []). cbn [app]. rewrite (IH [] SR SU); [reflexivity|intros z []|intros u J _; apply H; [right; exact J|intros []]].
    + pose proof SU as SU0. apply StronglySorted_inv in SU. destruct SU as [SU FU]. rewrite Forall_forall in FU.
      destruct (Z.eq_dec v r) as [E|E].
      * subst v. cbn [flat_map]. f_equal. apply IH; [exact SR|exact SU| |].
        -- intros z J. destruct (I z (or_intror J)) as [Q|Q]; [|exact Q]. specialize (FU z J). lia.
        -- intros u J N. apply H; [right; exact J|]. intros [Q|Q]; [|exact (N Q)]. specialize (FR u J). lia.
      * assert (L : r < v) by (destruct (I v (or_introl eq_refl)) as [Q|Q]; [congruence|exact (FR v Q)]).
        rewrite (H r (or_introl eq_refl)) by (intros [Q|Q]; [congruence|specialize (FU r Q); lia]). cbn [app]. apply IH; [exact SR|exact SU0| |].
        -- intros z J. destruct (I z J) as [Q|Q]; [|exact Q]. destruct J as [J|J]; [congruence|specialize (FU z J); lia].
        -- intros u J N. apply H; [right; exact J|exact N].
Qed.
Lemma usis_in : forall u, In u usis <-> 1 <= u <= 65534.
Proof.
  intros u. unfold usis. rewrite in_map_iff. split.
  - intros (n & <- & I). apply in_seq in I. lia.
  - intros H. exists (Z.to_nat u). split; [lia|]. apply in_seq. lia.
Qed.
Lemma usis_sorted : StronglySorted Z.lt usis.
Proof.
  unfold usis. generalize (Z.to_nat 65534). intros n. generalize 1%nat. induction n as [|n IH]; intros k; cbn [seq map]; [constructor|].
  constructor; [apply IH|]. rewrite Forall_forall. intros z I. apply in_map_iff in I. destruct I as (j & <- & J). apply in_seq in J. lia.
Qed.

Definition items_ok (l : list ditem) : Prop := (forall i, In i l -> diag_typed (content i)) /\ NoDup (map key_of (map content l)).
Lemma typed_usi : forall i, diag_typed (content i) -> 0 <= d_usi i <= 32771.
Proof.
  intros i. unfold content. destruct (Z.ltb_spec (d_usi i) 32768); intros T; [cbn [diag_typed] in T; lia|]. destruct T as ([U|[U|[U|[]]]] & _); lia.
Qed.

Lemma flat_flat : forall A B C (g : B -> list C) (h : A -> list B) l, flat_map g (flat_map h l) = flat_map (fun x => flat_map g (h x)) l.
Proof. intros A B C g h l. induction l as [|x l IH]; [reflexivity|]. cbn [flat_map]. rewrite flat_map_app, IH. reflexivity. Qed.

Lemma wenc_subslot : forall f a s t l, items_ok l -> place_ok (a, s, t) ->
  wenc (put_diag_subslot true f a s t l) (flat_map edblock (blocks (wanted f) (a, s, t) (map content l))).
Proof.
  intros f a s t l (T & K) PO.
  destruct (@listed_spec (length l) l 0) as (us & E & S & M).
  { intros i I. pose proof (typed_usi i (T i I)). lia. }
  { unfold above. apply Nat.le_trans with (length (filter (fun _ : ditem => true) l)); [apply filter_le; auto|].
    clear. induction l as [|i l IH]; cbn [filter length]; lia. }
  eapply wenc_ext; [intros w; unfold put_diag_subslot; rewrite E; reflexivity|].
  assert (EQ : blocks (wanted f) (a, s, t) (map content l) = flat_map (block_at (wanted f) (a, s, t) (map content l)) us).
  { apply flat_sorted; [exact usis_sorted|exact S| |].
    - intros u I. apply usis_in. apply M in I. destruct I as [P I]. apply in_map_iff in I. destruct I as (i & <- & I). pose proof (typed_usi i (T i I)). lia.
    - intros u U N. apply usis_in in U. unfold block_at. cbv zeta. rewrite <- filter_content.
      replace (filter (item_in f u) l) with (@nil ditem); [reflexivity|]. symmetry. 
      assert (G : forall i, In i l -> d_usi i <> u) by (intros i I Q; apply N, M; split; [lia|rewrite <- Q; apply in_map; exact I]).
      clear - G. induction l as [|i l IH]; [reflexivity|]. cbn [filter]. unfold item_in at 1. destruct (Z.eqb_spec (d_usi i) u) as [Q|Q]; [exfalso; exact (G i (or_introl eq_refl) Q)|].
      rewrite andb_false_r. apply IH. intros j J. apply G. right. exact J. }
  rewrite EQ, flat_flat. apply wenc_all. intros u I. apply M in I. destruct I as [P I]. apply in_map_iff in I. destruct I as (i & <- & I). pose proof (typed_usi i (T i I)) as TU.
  unfold block_at. cbv zeta. rewrite <- filter_content. pose proof (wenc_list f (d_usi i) a s t l T PO ltac:(lia)) as W. cbv zeta in W.
  destruct (forallb empty (map content (filter (item_in f (d_usi i)) l))); cbn [flat_map]; [exact W|rewrite app_nil_r; exact W].
Qed.

Lemma blocks_ok : forall f p l, items_ok l -> place_ok p -> forall b, In b (blocks (wanted f) p (map content l)) -> dblock_ok b.
Proof.
  intros f p l (T & K) PO b I. apply in_flat_map in I. destruct I as (u & U & I). apply usis_in in U. unfold block_at in I. cbv zeta in I.
  destruct (forallb empty (filter (fun x => wanted f x && (usi_of x =? u)) (map content l))) eqn:B; [destruct I|]. destruct I as [<-|[]].
  assert (TY : forall x, In x (map content l) -> diag_typed x) by (intros x I; apply in_map_iff in I; destruct I as (i & <- & I); exact (T i I)).
  split; [exact PO|]. split; [lia|]. split; [split|].
  - intros x I. apply filter_In in I. destruct I as [I W]. apply andb_prop in W. split; [apply Z.eqb_eq; tauto|exact (TY x I)].
  - intros LT. revert K TY. generalize (map content l). intros ds. clear - LT. induction ds as [|x ds IH]; intros K TY; [apply Nat.le_0_l|]. cbn [filter map] in *. inversion K as [|? ? K1 K2]; subst.
    destruct (wanted f x && (usi_of x =? u)) eqn:W; [|apply IH; [exact K2|intros y J; apply TY; right; exact J]].
    replace (filter (fun x => wanted f x && (usi_of x =? u)) ds) with (@nil diag); [cbn [length]; lia|].
    assert (KE : forall y, diag_typed y -> usi_of y = u -> key_of y = KManufacturer u).
    { intros [v z|v z] TT UU; cbn [usi_of] in UU; subst v; [destruct TT as ([Q|[Q|[Q|[]]]] & _); lia|reflexivity]. }
    apply andb_prop in W. destruct W as [_ W]. apply Z.eqb_eq in W. pose proof (KE x (TY x (or_introl eq_refl)) W) as KX.
    clear IH. symmetry. assert (TY2 : forall y, In y ds -> diag_typed y) by (intros y J; apply TY; right; exact J). clear TY K K2. induction ds as [|y ds IH]; [reflexivity|]. cbn [filter map] in *.
    destruct (Z.eqb_spec (usi_of y) u) as [Q|Q].
    + exfalso. apply K1. left. rewrite KX. apply KE; [apply TY2; left; reflexivity|exact Q].
    + rewrite andb_false_r. apply IH; [intros J; apply K1; right; exact J|intros z J; apply TY2; right; exact J].
  - intros Q. assert (Y : forallb empty (filter (fun x => wanted f x && (usi_of x =? u)) (map content l)) = true); [|congruence].
    revert Q. clear. generalize (filter (fun x => wanted f x && (usi_of x =? u)) (map content l)). intros ds. induction ds as [|x ds IH]; intros Q; [reflexivity|]. cbn [flat_map forallb] in *.
    apply app_eq_nil in Q. destruct Q as [Q1 Q2]. rewrite (IH Q2), andb_true_r. destruct x as [v z|v k]; cbn [ediag] in Q1; [|rewrite Q1; reflexivity].
    apply (f_equal (@length Z)) in Q1. rewrite app_length, e16_length in Q1. cbn [length] in Q1. lia.
Qed.
Lemma inside_subslot : forall f a s t l, (forall i, In i l -> d_usi i < 65535) -> stays_inside (put_diag_subslot true f a s t l).
Proof.
  intros f a s t l T. destruct (@listed_spec (length l) l 0) as (us & E & _).
  { exact T. }
  { unfold above. apply Nat.le_trans with (length (filter (fun _ : ditem => true) l)); [apply filter_le; auto|]. clear. induction l as [|i l IH]; cbn [filter length]; lia. }
  eapply inside_ext; [intros w; unfold put_diag_subslot; rewrite E; reflexivity|]. apply inside_all. intros u _. apply inside_list.
Qed.

(** * The parts of the device *)

Section Parts.
Variable f : dfilter.
Variable dl : dlists.
Definition pl (p : place) : list ditem := let '(a, s, t) := p in dl a s t.
Definition pb (p : place) : list Z := flat_map edblock (blocks (wanted f) p (map content (pl p))).
Hypothesis D : forall p, items_ok (pl p).

Lemma wenc_place : forall a s t, place_ok (a, s, t) -> wenc (put_place true f dl a s t) (pb (a, s, t)).
Proof. intros a s t P. apply wenc_subslot; [exact (D (a, s, t))|exact P]. Qed.
Lemma inside_place : forall a s t, stays_inside (put_place true f dl a s t).
Proof. intros a s t. apply inside_subslot. intros i I. pose proof (typed_usi i (proj1 (D (a, s, t)) i I)). lia. Qed.

Lemma flat_if : forall A B C (c : A -> bool) (h : A -> B) (e : B -> list C) l, flat_map e (map h (filter c l)) = flat_map (fun x => if c x then e (h x) else []) l.
Proof. intros A B C c h e l. induction l as [|x l IH]; [reflexivity|]. cbn [filter flat_map]. destruct (c x); cbn [map flat_map]; rewrite IH; reflexivity. Qed.

Lemma wenc_slot : forall a y, (forall p, In p (row_places (row_of a y)) -> place_ok p) -> wenc (put_diag_slot true f dl a y) (flat_map pb (row_places (row_of a y))).
Proof.
  intros a y P. unfold row_places, row_of in *. cbn [w_api w_slot w_subs] in *. rewrite flat_if. apply wenc_all. intros z I. destruct (rs_use z) eqn:U; [|exact wenc_skip].
  apply wenc_place. apply P. apply (in_map (fun z0 => (a, rl_num y, rs_num z0))). apply filter_In. auto.
Qed.
Lemma inside_slot : forall a y, stays_inside (put_diag_slot true f dl a y).
Proof. intros a y. apply inside_all. intros z _. destruct (rs_use z); [apply inside_place|exact inside_skip]. Qed.

Lemma wenc_api : forall x, (forall p, In p (flat_map row_places (rows x)) -> place_ok p) -> wenc (put_diag_api true f dl x) (flat_map pb (flat_map row_places (rows x))).
Proof.
  intros x P. rewrite flat_flat. unfold rows in *. rewrite flat_if. apply wenc_all. intros y I. destruct (rl_use y) eqn:U; [|exact wenc_skip].
  apply (wenc_slot (ra_num x) y). intros p J. apply P. apply in_flat_map. exists (row_of (ra_num x) y). split; [|exact J].
  apply (in_map (fun y => mkRow (ra_num x) (rl_num y) (rl_ident y) (filter rs_use (rl_subs y)))). apply filter_In. auto.
Qed.
Lemma inside_api : forall x, stays_inside (put_diag_api true f dl x).
Proof. intros x. apply inside_all. intros y _. destruct (rl_use y); [apply inside_slot|exact inside_skip]. Qed.

Definition sub_fits (y : rslot) (e : csub) : bool := match get_sub y (fst e) with Some z => rs_ident z =? snd e | None => false end.
Definition fitting (a : Z) (y : rslot) (l : list csub) : list place := map (fun e : csub => (a, rl_num y, fst e)) (filter (sub_fits y) l).
Lemma wenc_ar_slot : forall nt a y m, mod_sizes nt m -> let ps := fitting a y (map csub_of (firstn (xm_n m) (xm_subs m))) in
  (forall p, In p ps -> place_ok p) -> wenc (put_diag_ar_slot true f dl a y m) (flat_map pb ps).
Proof.
  intros nt a y m (S1 & S2 & S3) ps. unfold ps, fitting. intros P. rewrite flat_if in *. rewrite flat_map_map.
  eapply wenc_ext; [intros w; unfold put_diag_ar_slot; rewrite upto_ok by lia; cbn [obind]; reflexivity|].
  apply wenc_all. intros e I. unfold sub_fits. cbn [csub_of fst snd]. destruct (get_sub y (xs_num e)) as [z|] eqn:G; [|exact wenc_skip].
  pose proof (num_get _ _ _ _ _ _ G) as NZ. destruct (rs_ident z =? xs_ident e) eqn:Q; [|exact wenc_skip]. rewrite NZ. apply wenc_place. apply P.
  change (In ((fun e : csub => (a, rl_num y, fst e)) (csub_of e)) (map (fun e : csub => (a, rl_num y, fst e)) (filter (sub_fits y) (map csub_of (firstn (xm_n m) (xm_subs m)))))).
  apply in_map. apply filter_In. split; [apply in_map; exact I|]. unfold sub_fits. cbn [csub_of fst snd]. rewrite G. exact Q.
Qed.
Lemma inside_ar_slot : forall nt a y m, mod_sizes nt m -> stays_inside (put_diag_ar_slot true f dl a y m).
Proof.
  intros nt a y m (S1 & S2 & S3). eapply inside_ext; [intros w; unfold put_diag_ar_slot; rewrite upto_ok by lia; cbn [obind]; reflexivity|].
  apply inside_all. intros e _. destruct (get_sub y (xs_num e)) as [z|]; [|exact inside_skip]. destruct (rs_ident z =? xs_ident e); [apply inside_place|exact inside_skip].
Qed.
End Parts.

(** In terms of the table. *)
Lemma table_api : forall d a, uniq _ ra_use ra_num d -> filter (fun w => w_api w =? a) (table d) = match get_api d a with Some x => rows x | None => [] end.
Proof.
  intros d a. unfold table, get_api, uniq.
  assert (Z0 : forall r, ra_num r <> a -> filter (fun w => w_api w =? a) (rows r) = []).
  { intros r N. unfold rows. induction (filter rl_use (ra_slots r)) as [|z k IHk]; [reflexivity|]. cbn [map filter w_api]. destruct (Z.eqb_spec (ra_num r) a); [contradiction|exact IHk]. }
  assert (Z1 : forall r, ra_num r = a -> filter (fun w => w_api w =? a) (rows r) = rows r).
  { intros r N. unfold rows. induction (filter rl_use (ra_slots r)) as [|z k IHk]; [reflexivity|]. cbn [map filter w_api]. destruct (Z.eqb_spec (ra_num r) a); [|contradiction]. rewrite IHk. reflexivity. }
  induction d as [|y d IH]; intros N; [reflexivity|]. cbn [filter get] in *. destruct (ra_use y); cbn [andb]; [|exact (IH N)].
  cbn [map flat_map] in *. inversion N as [|? ? N1 N2]; subst. rewrite filter_app. destruct (Z.eqb_spec (ra_num y) a) as [E|E].
  - rewrite (Z1 y E). replace (filter (fun w => w_api w =? a) (flat_map rows (filter ra_use d))) with (@nil row); [apply app_nil_r|].
    rewrite E in N1. clear - N1 Z0. induction (filter ra_use d) as [|r l IHl]; [reflexivity|]. cbn [flat_map map] in *. rewrite filter_app, Z0 by (intros Q; apply N1; left; exact Q).
    apply IHl. intros Q. apply N1. right. exact Q.
  - rewrite (Z0 y E). exact (IH N2).
Qed.
Lemma in_module_get : forall na ns nt d x y id l, dev_ok na ns nt d -> get_api d (ra_num x) = Some x -> get_slot x (rl_num y) = Some y ->
  in_module d (ra_num x) (rl_num y, id, l) = if rl_ident y =? id then fitting (ra_num x) y l else [].
Proof.
  intros na ns nt d x y id l DO G Y. unfold in_module, module_is, fitting. rewrite (mod_at_slot na ns nt d _ _ DO). unfold slot. rewrite G, Y. cbn [option_map].
  destruct (rl_ident y =? id); [|reflexivity]. rewrite (filter_ext (as_expected d (ra_num x) (rl_num y)) (sub_fits y)); [reflexivity|]. intros e. unfold as_expected, sub_fits. rewrite (sub_in_cell na ns nt d _ _ _ DO). unfold IdentProps.cell. rewrite G, Y. reflexivity.
Qed.
Lemma in_module_none : forall na ns nt d a s id l, dev_ok na ns nt d -> slot d a s = None -> in_module d a (s, id, l) = [].
Proof. intros na ns nt d a s id l DO S. unfold in_module, module_is. rewrite (mod_at_slot na ns nt d _ _ DO), S. reflexivity. Qed.

Lemma exp_mod_ok : forall na ns nt i a s, sizes na ns nt i -> exists m,
  get_exp_mod i a s = Ok m /\ expects (conf i) a s = option_map cmod_of m /\ (forall y, m = Some y -> xm_num y = s /\ mod_sizes nt y).
Proof.
  intros na ns nt i a s SZ. destruct (find_conf na ns nt i a s SZ) as (x & m & E1 & E2 & F1 & FX & FM). exists m. unfold get_exp_mod, expects. rewrite E1, F1. cbn [obind]. split; [exact E2|]. split; [|exact FM].
  destruct x as [x|]; cbn [option_map].
  - destruct (FX x eq_refl) as (_ & _ & F2). exact F2.
  - replace m with (@None xmod) by congruence. reflexivity.
Qed.

Definition arsizes (na ns nt : nat) (ar : option xid) : Prop := match ar with Some i => sizes na ns nt i | None => True end.
Definition part (sc : scope) : Z := match sc with SubslotOf => 128 | SlotOf => 192 | ArOf => 224 | ApiOf => 240 | DeviceOf => 248 end.
Definition scoped (sc : scope) (f : dfilter) (d : dev) (dl : dlists) (ar : option xid) (a s t : Z) : writer :=
  match sc with
  | SubslotOf => put_diagnosis_subslot true f d dl ar a s t
  | SlotOf => put_diagnosis_slot true f d dl ar a s
  | ApiOf => put_diagnosis_api true f d dl a
  | ArOf => put_diagnosis_ar true f d dl ar
  | DeviceOf => put_diagnosis_device true f d dl
  end.

Section Scopes.
Variables na ns nt : nat.
Variable f : dfilter.
Variable dl : dlists.
Variable d : dev.
Variable ar : option xid.
Hypothesis D : forall p, items_ok (pl dl p).
Hypothesis DO : dev_ok na ns nt d.
Hypothesis SZ : arsizes na ns nt ar.
Variables a s t : Z.

Lemma wenc_scope : forall sc idx, idx / 256 = part sc -> (forall p, In p (places d (option_map conf ar) a s t idx) -> place_ok p) ->
  wenc (scoped sc f d dl ar a s t) (flat_map (pb f dl) (places d (option_map conf ar) a s t idx)).
Proof.
  intros sc idx PT. unfold places. rewrite PT. destruct sc; cbn [part Z.eqb Pos.eqb scoped].
  - (* subslot *)
    unfold put_diagnosis_subslot, get_slot_full. rewrite (sub_in_cell na ns nt d a s t DO). unfold IdentProps.cell. unfold module_is. rewrite (mod_at_slot na ns nt d a s DO). unfold slot.
    destruct (get_api d a) as [x|]; [|intros _; exact wenc_skip]. destruct (get_slot x s) as [y|]; [|intros _; exact wenc_skip]. destruct (get_sub y t) as [z|]; [|intros _; exact wenc_skip].
    assert (ONE : (forall p, In p [(a, s, t)] -> place_ok p) -> wenc (put_place true f dl a s t) (flat_map (pb f dl) [(a, s, t)])).
    { intros P. cbn [flat_map]. rewrite app_nil_r. apply (wenc_place f dl D). apply P. left. reflexivity. }
    destruct ar as [i|]; cbn [option_map]; [|exact ONE]. destruct (exp_mod_ok na ns nt i a s SZ) as (m & E & X & M). rewrite X.
    unfold get_exp_sub. destruct m as [m|]; cbn [option_map].
    + destruct (M m eq_refl) as (NM & S1 & S2 & S3). unfold cmod_of.
      destruct (search_ok _ _ xs_num (fun c : csub => fst c) csub_of t (xm_n m) (xm_subs m)) as (e & E3 & F3 & _); [reflexivity|lia|].
      rewrite F3. destruct e as [e|]; cbn [option_map csub_of snd].
      * rewrite (Z.eqb_sym (rl_ident y)), (Z.eqb_sym (rs_ident z)).
        destruct (xm_ident m =? rl_ident y) eqn:Q1; destruct (xs_ident e =? rs_ident z) eqn:Q2; cbn [andb]; intros P; (eapply wenc_ext; [intros w; rewrite E; cbn [obind]; rewrite ?E; cbn [obind]; rewrite E3; cbn [obind]; rewrite Q1, Q2; cbn [negb orb]; reflexivity|]); [exact (ONE P)|exact wenc_skip|exact wenc_skip|exact wenc_skip].
      * intros P. eapply wenc_ext; [intros w; rewrite E; cbn [obind]; rewrite ?E; cbn [obind]; rewrite E3; cbn [obind]; reflexivity|]. exact (ONE P).
    + intros P. eapply wenc_ext; [intros w; rewrite E; cbn [obind]; reflexivity|]. exact (ONE P).
  - (* slot *)
    unfold put_diagnosis_slot, get_slot_full. rewrite (row_get na ns nt d a s DO).
    destruct (get_api d a) as [x|] eqn:G; cbn [option_map]; [|intros _; exact wenc_skip]. destruct (get_slot x s) as [y|] eqn:Y; cbn [option_map]; [|intros _; exact wenc_skip].
    destruct ar as [i|]; cbn [option_map].
    + destruct (exp_mod_ok na ns nt i a s SZ) as (m & E & X & M). rewrite X. destruct m as [m|]; cbn [option_map].
      * destruct (M m eq_refl) as (NM & SM). pose proof (num_get _ _ _ _ _ _ G) as NX. pose proof (num_get _ _ _ _ _ _ Y) as NY. rewrite <- NX, <- NY in *.
        replace (cmod_of m) with (rl_num y, xm_ident m, map csub_of (firstn (xm_n m) (xm_subs m))) by (unfold cmod_of; rewrite NM; reflexivity).
        rewrite (in_module_get na ns nt d x y _ _ DO G Y). rewrite (Z.eqb_sym (rl_ident y)). destruct (xm_ident m =? rl_ident y) eqn:Q; intros P; (eapply wenc_ext; [intros w; rewrite E; cbn [obind]; rewrite Q; reflexivity|]); [|exact wenc_skip].
        exact (wenc_ar_slot f dl D nt (ra_num x) y m SM P).
      * intros P. eapply wenc_ext; [intros w; rewrite E; cbn [obind]; reflexivity|]. exact (wenc_slot f dl D a y P).
    + intros P. eapply wenc_ext; [intros w; cbn [obind]; reflexivity|]. exact (wenc_slot f dl D a y P).
  - (* API *)
    unfold put_diagnosis_api. rewrite (table_api d a (proj1 DO)). destruct (get_api d a) as [x|]; [|intros _; exact wenc_skip]. apply wenc_api. exact D.
  - (* connection *)
    unfold put_diagnosis_ar. destruct ar as [i|]; cbn [option_map]; [|intros _; exact wenc_skip]. intros P. destruct SZ as (S1 & S2 & S3 & S4).
    eapply wenc_ext; [intros w; rewrite upto_ok by lia; cbn [obind]; reflexivity|]. rewrite flat_flat. unfold conf in *. rewrite flat_map_map. apply wenc_all. intros xa I.
    assert (SY : api_sizes ns nt xa) by (apply S4; rewrite <- (firstn_skipn (xi_n i) (xi_apis i)); apply in_or_app; left; exact I). destruct SY as (T1 & T2 & T3 & T4).
    cbn [capi_of fst snd]. rewrite flat_flat, flat_map_map.
    destruct (get_api d (xa_num xa)) as [x|] eqn:G.
    + eapply wenc_ext; [intros w; rewrite upto_ok by lia; cbn [obind]; reflexivity|]. apply wenc_all. intros m J.
      assert (SM : mod_sizes nt m) by (apply T4; rewrite <- (firstn_skipn (xa_n xa) (xa_mods xa)); apply in_or_app; left; exact J).
      pose proof (num_get _ _ _ _ _ _ G) as NX. rewrite <- NX in *. unfold cmod_of.
      destruct (get_slot x (xm_num m)) as [y|] eqn:Y.
      * pose proof (num_get _ _ _ _ _ _ Y) as NY.
        assert (PP : forall p, In p (in_module d (ra_num x) (cmod_of m)) -> place_ok p).
        { intros p K. apply P. apply in_flat_map. exists (capi_of xa). split; [apply in_map; exact I|]. apply in_flat_map. exists (cmod_of m). split; [apply in_map; exact J|]. cbn [capi_of fst]. rewrite <- NX. exact K. }
        unfold cmod_of in PP. rewrite <- NY in *. rewrite (in_module_get na ns nt d x y _ _ DO G Y) in *. destruct (rl_ident y =? xm_ident m); [|exact wenc_skip].
        exact (wenc_ar_slot f dl D nt (ra_num x) y m SM PP).
      * rewrite (in_module_none na ns nt d _ _ _ _ DO) by (unfold slot; rewrite G; exact Y). exact wenc_skip.
    + match goal with |- wenc _ ?l => replace l with (@nil Z) end; [exact wenc_skip|]. symmetry. clear - DO G. induction (firstn (xa_n xa) (xa_mods xa)) as [|m l IH]; [reflexivity|].
      cbn [flat_map]. unfold cmod_of at 1. rewrite (in_module_none na ns nt d _ _ _ _ DO) by (unfold slot; rewrite G; reflexivity). exact IH.
  - (* device *)
    unfold put_diagnosis_device, table. intros P. rewrite !flat_flat. rewrite <- (map_id (filter ra_use d)), flat_if. apply wenc_all. intros x I. destruct (ra_use x) eqn:U; [|exact wenc_skip].
    rewrite <- flat_flat. apply (wenc_api f dl D). intros p J. apply P. apply in_flat_map in J. destruct J as (w & J1 & J2). apply in_flat_map. exists w. split; [|exact J2]. apply in_flat_map. exists x. split; [apply filter_In; auto|exact J1].
Qed.

Lemma inside_scope : forall sc, stays_inside (scoped sc f d dl ar a s t).
Proof.
  intros sc. destruct sc; cbn [scoped].
  - unfold put_diagnosis_subslot, get_slot_full. destruct (get_api d a) as [x|]; [|exact inside_skip]. destruct (get_slot x s) as [y|]; [|exact inside_skip]. destruct (get_sub y t) as [z|]; [|exact inside_skip].
    destruct ar as [i|]; [|apply (inside_place f dl D)]. destruct (exp_mod_ok na ns nt i a s SZ) as (m & E & X & M). unfold get_exp_sub. destruct m as [m|].
    + destruct (M m eq_refl) as (NM & S1 & S2 & S3).
      destruct (search_ok _ _ xs_num (fun c : csub => fst c) csub_of t (xm_n m) (xm_subs m)) as (e & E3 & _); [reflexivity|lia|].
      eapply inside_ext; [intros w; rewrite E; cbn [obind]; rewrite ?E; cbn [obind]; rewrite E3; cbn [obind]; reflexivity|].
      destruct e as [e|]; [|apply (inside_place f dl D)]. destruct (negb _ || negb _); [exact inside_skip|apply (inside_place f dl D)].
    + eapply inside_ext; [intros w; rewrite E; cbn [obind]; reflexivity|]. apply (inside_place f dl D).
  - unfold put_diagnosis_slot, get_slot_full. destruct (get_api d a) as [x|]; [|exact inside_skip]. destruct (get_slot x s) as [y|]; [|exact inside_skip].
    destruct ar as [i|]; [|exact (inside_slot f dl D a y)]. destruct (exp_mod_ok na ns nt i a s SZ) as (m & E & X & M).
    eapply inside_ext; [intros w; rewrite E; cbn [obind]; reflexivity|]. destruct m as [m|]; [|exact (inside_slot f dl D a y)]. destruct (M m eq_refl) as (_ & SM).
    destruct (xm_ident m =? rl_ident y); [exact (inside_ar_slot f dl D nt a y m SM)|exact inside_skip].
  - unfold put_diagnosis_api. destruct (get_api d a); [apply (inside_api f dl D)|exact inside_skip].
  - unfold put_diagnosis_ar. destruct ar as [i|]; [|exact inside_skip]. destruct SZ as (S1 & S2 & S3 & S4).
    eapply inside_ext; [intros w; rewrite upto_ok by lia; cbn [obind]; reflexivity|]. apply inside_all. intros xa I.
    assert (SY : api_sizes ns nt xa) by (apply S4; rewrite <- (firstn_skipn (xi_n i) (xi_apis i)); apply in_or_app; left; exact I). destruct SY as (T1 & T2 & T3 & T4).
    destruct (get_api d (xa_num xa)) as [x|]; [|exact inside_skip]. eapply inside_ext; [intros w; rewrite upto_ok by lia; cbn [obind]; reflexivity|]. apply inside_all. intros m J.
    assert (SM : mod_sizes nt m) by (apply T4; rewrite <- (firstn_skipn (xa_n xa) (xa_mods xa)); apply in_or_app; left; exact J).
    destruct (get_slot x (xm_num m)) as [y|]; [|exact inside_skip]. destruct (rl_ident y =? xm_ident m); [exact (inside_ar_slot f dl D nt (ra_num x) y m SM)|exact inside_skip].
  - unfold put_diagnosis_device. apply inside_all. intros x _. destruct (ra_use x); [apply (inside_api f dl D)|exact inside_skip].
Qed.
End Scopes.

(** * What is stored *)

(** The arguments of the calls are of their types (pnet_api.h). *)
Definition typed_call (x : call) : Prop :=
  match x with
  | CAdd src _ _ err ext addv _ _ _ _ _ _ => 0 <= s_ch src /\ 0 <= err < 65536 /\ 0 <= ext < 65536 /\ 0 <= addv < 4294967296
  | CUpdate _ _ _ addv _ _ _ _ _ => 0 <= addv < 4294967296
  | _ => True
  end.
Definition std_ok (s : std) : Prop :=
  0 <= ch_nbr s < 65536 /\ 0 <= ch_props s < 65536 /\ 0 <= ch_err s < 65536 /\ 0 <= ext_err s < 65536 /\ 0 <= add_value s < 4294967296 /\ 0 <= qualifier s < 4294967296.
Definition item_ok (i : ditem) : Prop := 0 <= d_usi i <= 32771 /\ d_usi i <> 32769 /\ std_ok (d_std i).
Definition its_ok (its : nat -> ditem) : Prop := forall j, item_ok (its j).

Lemma item_typed : forall i, item_ok i -> diag_typed (content i).
Proof. intros i (U & M & S). unfold content. destruct (Z.ltb_spec (d_usi i) 32768); [cbn; lia|]. split; [cbn; lia|]. exact S. Qed.
Lemma upd_ok : forall its i x, its_ok its -> item_ok x -> its_ok (upd its i x).
Proof. intros its i x I X j. unfold upd. destruct (_ =? _)%nat; auto. Qed.
Lemma next_ok : forall n i, item_ok i -> item_ok (with_next n i).
Proof. intros n i H. exact H. Qed.
Lemma spec_ok : forall sp i, item_ok i -> item_ok (set_spec sp i).
Proof. intros sp i (U & M & S1 & S2 & S3). split; [exact U|]. split; [exact M|]. split; [exact S1|]. split; [apply u16_range|exact S3]. Qed.
Lemma find_loop_ok : forall fuel m its h p ix its' h' r, find_loop fuel m its h p ix = Some (its', h', r) -> its_ok its -> its_ok its'.
Proof.
  induction fuel as [|fuel IH]; intros m its h p ix its' h' r E I; destruct ix as [i|]; cbn [find_loop] in E; try discriminate; try (injection E as <- _ _; exact I).
  destruct (m (its i)); [|exact (IH _ _ _ _ _ _ _ _ E I)]. destruct p as [p|]; injection E as <- _ _; [apply upd_ok; [exact I|apply next_ok; apply I]|exact I].
Qed.
Lemma finish_ok : forall max c i k its fr cs h cl di o1 o2 s r os, finish max c i k its fr cs h cl di o1 o2 = Some (s, r, os) -> its_ok its -> its_ok (items s).
Proof.
  intros max c i k its fr cs h cl di o1 o2 s r os E I. unfold finish in E. assert (I2 : its_ok (upd its i (with_next h (its i)))) by (apply upd_ok; [exact I|apply next_ok; apply I]).
  destruct (walk_items _ _ _) as [l|]; [|discriminate]. destruct (c_owner cl); [destruct di|]; injection E as <- _ _; exact I2.
Qed.
Lemma mask_range : forall q, 0 <= q < 4294967296 -> 0 <= Z.land q (Z.lnot 7) < 4294967296.
Proof.
  intros q Q. change (Z.land q (Z.lnot 7)) with (Z.land q (Z.lnot (Z.ones 3))). rewrite <- Z.ldiff_land, Z.ldiff_ones_r, Z.shiftl_mul_pow2, Z.shiftr_div_pow2 by lia.
  change (2 ^ 3) with 8. pose proof (Z.div_mod q 8 ltac:(lia)). pose proof (Z.mod_pos_bound q 8 ltac:(lia)). pose proof (Z.div_pos q 8 ltac:(lia) ltac:(lia)). lia.
Qed.
Lemma fill_ok : forall maxm src bits sev err ext addv qual usi len data o1 o2 old, proper (CAdd src bits sev err ext addv qual usi len data o1 o2) -> typed_call (CAdd src bits sev err ext addv qual usi len data o1 o2) ->
  add_valid maxm src sev err ext addv (Z.land qual (Z.lnot 7)) usi len data = true -> item_ok old -> item_ok (fill_item src bits sev err ext addv (Z.land qual (Z.lnot 7)) usi len data old).
Proof.
  intros maxm src bits sev err ext addv qual usi len data o1 o2 old ((SO & _ & _ & Q) & _) (T1 & T2 & T3 & T4) V (_ & _ & OS). destruct SO as (_ & _ & U & _).
  unfold add_valid in V. repeat (apply andb_prop in V; let H := fresh "V" in destruct V as [V H]). apply negb_true_iff, orb_false_iff in V. destruct V as [VA VB].
  apply Z.ltb_ge in VA. apply Z.eqb_neq in VB. unfold usi_qualified, usi_multiple in *. apply negb_true_iff, Z.ltb_ge in V1. unfold whole_submodule in V1.
  unfold fill_item. destruct (usi <? usi_channel); cbn [item_ok d_usi d_std]; (split; [cbn; lia|]); (split; [exact VB|]); [exact OS|].
  unfold std_ok. cbn [ch_nbr ch_props ch_err ext_err add_value qualifier d_std]. split; [lia|]. split; [apply u16_range|]. split; [lia|]. split; [lia|]. split; [lia|]. apply mask_range. exact Q.
Qed.
Lemma new_ok : forall its fr i its' fr', new_diag its fr = Some (i, its', fr') -> its_ok its -> its_ok its'.
Proof.
  intros its fr i its' fr' E I. unfold new_diag in E. destruct fr as [k|]; [|discriminate]. injection E as <- <- _. apply upd_ok; [exact I|].
  split; [cbn; lia|]. split; [cbn; lia|]. unfold std_ok. cbn. lia.
Qed.
Lemma gone_ok : forall last i, item_ok i -> item_ok (gone_item last i).
Proof.
  intros last i H. unfold gone_item. destruct last; [|destruct (usi_channel <=? d_usi i); [apply spec_ok|]; exact H]. apply spec_ok.
  destruct H as (U & M & S1 & S2 & S3). split; [cbn; unfold usi_extended; lia|]. split; [cbn; unfold usi_extended; lia|]. split; [exact S1|]. split; [apply u16_range|exact S3].
Qed.
Lemma refresh_ok : forall addv len data i, 0 <= addv < 4294967296 -> item_ok i -> item_ok (refresh_item addv len data i).
Proof.
  intros addv len data i A H. unfold refresh_item. destruct (d_usi i <? usi_channel); [exact H|]. apply (spec_ok sp_appears) in H. destruct H as (U & M & S1 & S2 & S3 & S4 & _ & S6).
  split; [exact U|]. split; [exact M|]. split; [exact S1|]. split; [exact S2|]. split; [exact S3|]. split; [exact S4|]. split; [exact A|exact S6].
Qed.
Lemma dstep_ok : forall max maxm x s s' r os, proper x -> typed_call x -> dstep max maxm x s = Some (s', r, os) -> its_ok (items s) -> its_ok (items s').
Proof.
  intros max maxm x s s' r os PR TY E I. destruct x; cbn [dstep] in E.
  - unfold diag_add in E. destruct (add_valid _ _ _ _ _ _ _ _ _ _) eqn:V; cbn [negb] in E; [|injection E as <- _ _; exact I].
    destruct (find_cell _ _) as [c|]; [|injection E as <- _ _; exact I]. destruct (find_loop _ _ _ _ _ _) as [[[its h] q]|] eqn:FL; [|discriminate]. pose proof (find_loop_ok _ _ _ _ _ _ _ _ _ FL I) as I2.
    destruct q as [i|].
    + refine (finish_ok _ _ _ _ _ _ _ _ _ _ _ _ _ _ _ E _). apply upd_ok; [exact I2|]. exact (fill_ok _ _ _ _ _ _ _ _ _ _ _ _ _ _ PR TY V (I2 i)).
    + destruct (new_diag its (freel s)) as [[[i its2] fr]|] eqn:ND; [|injection E as <- _ _; exact I]. pose proof (new_ok _ _ _ _ _ ND I2) as I3.
      refine (finish_ok _ _ _ _ _ _ _ _ _ _ _ _ _ _ _ E _). apply upd_ok; [exact I3|]. exact (fill_ok _ _ _ _ _ _ _ _ _ _ _ _ _ _ PR TY V (I3 i)).
  - unfold diag_update in E. destruct (update_valid _ _ _ _ _ _ _ _); cbn [negb] in E; [|injection E as <- _ _; exact I].
    destruct (find_cell _ _) as [c|]; [|injection E as <- _ _; exact I]. destruct (find_loop _ _ _ _ _ _) as [[[its h] q]|] eqn:FL; [|discriminate]. pose proof (find_loop_ok _ _ _ _ _ _ _ _ _ FL I) as I2.
    destruct q as [i|]; [|injection E as <- _ _; exact I]. refine (finish_ok _ _ _ _ _ _ _ _ _ _ _ _ _ _ _ E _). apply upd_ok; [exact I2|]. apply refresh_ok; [exact TY|apply I2].
  - unfold diag_remove in E. destruct (remove_valid _ _ _ _); cbn [negb] in E; [|injection E as <- _ _; exact I].
    destruct (find_cell _ _) as [c|]; [|injection E as <- _ _; exact I]. destruct (find_loop _ _ _ _ _ _) as [[[its h] q]|] eqn:FL; [|discriminate]. pose proof (find_loop_ok _ _ _ _ _ _ _ _ _ FL I) as I2.
    destruct q as [i|]; [|injection E as <- _ _; exact I].
    set (its1 := match c_owner _ with Some _ => _ | None => _ end) in E. assert (I3 : its_ok its1) by (unfold its1; destruct (c_owner _); [apply upd_ok; [exact I2|apply gone_ok; apply I2]|exact I2]). clearbody its1.
    destruct (walk_items _ its1 h) as [l|]; [|discriminate]. unfold free_diag in E.
    assert (I4 : its_ok (upd its1 i (mkItem false (freel s) (d_usi (its1 i)) (d_std (its1 i)) (d_data (its1 i))))) by (apply upd_ok; [exact I3|exact (I3 i)]).
    destruct (c_owner _); [|injection E as <- _ _; exact I4]. destruct (walk_items _ _ h); [|discriminate]. injection E as <- _ _; exact I4.
  - destruct (find_cell _ _); [injection E as <- _ _; exact I|]. destruct (_ && _); injection E as <- _ _; exact I.
  - destruct (find_cell _ _); injection E as <- _ _; exact I.
  - injection E as <- _ _; exact I.
Qed.

Definition known (x : call) : Prop := proper x /\ typed_call x.
Lemma reach_ok : forall max maxm n s, dreach max maxm n known s -> dreach max maxm n proper s /\ its_ok (items s).
Proof.
  intros max maxm n s (xs & tr & P & R). split.
  - exists xs, tr. split; [|exact R]. eapply Forall_impl; [|exact P]. intros x H. exact (proj1 H).
  - assert (G : forall xs s0 tr0, Forall known xs -> its_ok (items s0) -> drun max maxm xs s0 tr0 = Some (s, tr) -> its_ok (items s)).
    { clear xs P R. induction xs as [|x xs IH]; cbn [drun]; intros s0 tr0 P I R; [injection R as <- _; exact I|]. inversion P as [|? ? [K1 K2] K3]; subst.
      destruct (dstep max maxm x s0) as [[[s1 r] os]|] eqn:E; [|discriminate]. exact (IH _ _ K3 (dstep_ok _ _ _ _ _ _ _ K1 K2 E I) R). }
    refine (G _ _ _ P _ R). intros j. split; [cbn; lia|]. split; [cbn; lia|]. unfold std_ok. cbn. lia.
Qed.

(** The lists a read walks; what is stored in a subslot. *)
Definition lists_of (max : nat) (s : dstate) : dlists := fun a sl t =>
  match find_cell (a, sl, t) (cells s) with
  | Some c => match walk_items max (items s) (c_list (DiagModel.cell_at c s)) with Some l => l | None => [] end
  | None => []
  end.
Definition stored_at (max : nat) (s : dstate) (p : place) : list diag := match stored max s p with Some l => l | None => [] end.
Lemma lists_stored : forall max s p, map content (pl (lists_of max s) p) = stored_at max s p.
Proof.
  intros max s [[a sl] t]. unfold pl, lists_of, stored_at, stored. destruct (find_cell (a, sl, t) (cells s)) as [c|]; [|reflexivity]. destruct (walk_items _ _ _); reflexivity.
Qed.
Lemma lists_ok : forall max maxm n s, (0 < max)%nat -> dreach max maxm n known s -> forall p, items_ok (pl (lists_of max s) p).
Proof.
  intros max maxm n s M R p. destruct (reach_ok _ _ _ _ R) as [R2 I]. split.
  - intros i J. apply item_typed. destruct p as [[a sl] t]. unfold pl, lists_of in J. destruct (find_cell _ _) as [c|]; [|destruct J]. unfold walk_items in J.
    destruct (walk _ _ _) as [l|]; [|destruct J]. apply in_map_iff in J. destruct J as (k & <- & _). apply I.
  - rewrite lists_stored. unfold stored_at. destruct (stored max s p) as [l|] eqn:E; [|constructor]. exact (@C34_keys_unique max maxm n M s p l R2 E).
Qed.

(** * Indexes *)
Lemma index_scope : forall idx, diag_index idx -> exists sc f, idx / 256 = part sc /\ (forall x, kind idx x = wanted f x) /\
  forall d dl ar a s t, read_diag d dl ar a s t idx = Some (scoped sc f d dl ar a s t).
Proof.
  intros idx H. assert (I : In idx (map fst diag_table)).
  { destruct H as [[P K]| ->]; [|vm_compute; tauto]. assert (E : idx = 256 * (idx / 256) + idx mod 256) by (apply Z.div_mod; lia).
    rewrite E. destruct P as [P|[P|[P|[P|[]]]]]; destruct K as [K|[K|[K|[K|[K|[K|[K|[]]]]]]]]; rewrite <- P, <- K; vm_compute; tauto. }
  assert (FA : Forall (fun x => fst x / 256 = part (fst (snd x)) /\ find (fun y => fst y =? fst x) diag_table = Some x /\ (forall v, kind (fst x) v = wanted (snd (snd x)) v)) diag_table).
  { unfold diag_table at 2. repeat (constructor; [split; [reflexivity|split; [reflexivity|intros v; reflexivity]]|]). constructor. }
  rewrite Forall_forall in FA. apply in_map_iff in I. destruct I as ([i [sc f]] & <- & I). destruct (FA _ I) as (F1 & F2 & F3). cbn [fst snd] in *.
  exists sc, f. split; [exact F1|]. split; [exact F3|]. intros d dl ar a s t. unfold read_diag. rewrite F2. destruct sc; reflexivity.
Qed.

Lemma blocks_same : forall k k' p l, (forall x, k x = k' x) -> blocks k p l = blocks k' p l.
Proof.
  intros k k' p l H. unfold blocks. apply flat_map_ext. intros u. unfold block_at.
  rewrite (filter_ext (fun x => k x && (usi_of x =? u)) (fun x => k' x && (usi_of x =? u))); [reflexivity|]. intros x. rewrite H. reflexivity.
Qed.

(** * The theorems *)

(** Every read of a diagnosis record delivers the blocks of [diag_answer]. *)
Theorem C117_read_partial : forall na ns nt h max maxm n st ar a s t idx,
  (0 < na)%nat -> (0 < max)%nat -> dreach max maxm n known st -> (forall i, ar = Some i -> sizes na ns nt i) -> diag_index idx ->
  exists f, read_diag (run na ns nt h) (lists_of max st) ar a s t idx = Some f /\ stays_inside f /\
  let e := option_map conf ar in
  let bl := diag_answer (run na ns nt h) (stored_at max st) e a s t idx in
  ((forall p, In p (places (run na ns nt h) e a s t idx) -> place_ok p) -> answered f (rlist get_dblock (length bl)) (map told bl) (sum (map dblock_size bl))).
Proof.
  intros na ns nt h max maxm n st ar a s t idx P M R SZ I. pose proof (run_ok na ns nt h P) as DO. revert DO. generalize (run na ns nt h). clear h. intros d DO.
  pose proof (lists_ok _ _ _ _ M R) as D. destruct (index_scope idx I) as (sc & f & PT & K & E). rewrite E. exists (scoped sc f d (lists_of max st) ar a s t). split; [reflexivity|].
  assert (AS : arsizes na ns nt ar) by (destruct ar as [i|]; [exact (SZ i eq_refl)|exact Logic.I]).
  split; [exact (inside_scope na ns nt f _ d ar D AS a s t sc)|]. cbv zeta. intros PO. pose proof (wenc_scope na ns nt f _ d ar D DO AS a s t sc idx PT PO) as W.
  assert (EQ : flat_map (pb f (lists_of max st)) (places d (option_map conf ar) a s t idx) = flat_map edblock (diag_answer d (stored_at max st) (option_map conf ar) a s t idx)).
  { unfold diag_answer. rewrite flat_flat. apply flat_map_ext. intros p. unfold pb. rewrite lists_stored, (blocks_same _ _ _ _ K). reflexivity. }
  rewrite EQ in W. clear EQ.
  assert (BO : forall b, In b (diag_answer d (stored_at max st) (option_map conf ar) a s t idx) -> dblock_ok b).
  { intros b J. apply in_flat_map in J. destruct J as (p & J1 & J2). apply (blocks_ok f p _ (D p) (PO p J1)). rewrite lists_stored, <- (blocks_same _ _ _ _ K). exact J2. }
  revert W BO. generalize (diag_answer d (stored_at max st) (option_map conf ar) a s t idx). intros bl W BO.
  replace (sum (map dblock_size bl)) with (length (flat_map edblock bl)) by (apply sum_map_flat; intros b _; apply edblock_length).
  apply answered_of; [exact W|]. apply dec_list. intros b J. apply dec_dblock. apply BO. exact J.
Qed.
Print Assumptions C117_read_partial.

(** These are the diagnoses stored in the part asked for and of the kind of the record,
    but for those with USI 0 and those without data. *)
Theorem C117_exactly_partial : forall d st e a s t idx p u ds,
  In (p, u, ds) (diag_answer d st e a s t idx) <->
  In p (places d e a s t idx) /\ 0 < u < 65535 /\ ds = filter (fun x => kind idx x && (usi_of x =? u)) (st p) /\ exists x, In x ds /\ empty x = false.
Proof.
  intros d st e a s t idx p u ds. unfold diag_answer. rewrite in_flat_map. split.
  - intros (q & Q & J). apply in_flat_map in J. destruct J as (v & V & J). apply usis_in in V. unfold block_at in J. cbv zeta in J. destruct (forallb empty _) eqn:B; [destruct J|].
    destruct J as [J|[]]. injection J as <- <- <-. split; [exact Q|]. split; [lia|]. split; [reflexivity|].
    destruct (existsb (fun x => negb (empty x)) (filter (fun x => kind idx x && (usi_of x =? v)) (st q))) eqn:X.
    + apply existsb_exists in X. destruct X as (x & X1 & X2). exists x. split; [exact X1|apply negb_true_iff; exact X2].
    + exfalso. rewrite <- not_true_iff_false in B. apply B. apply forallb_forall. intros x J. destruct (empty x) eqn:EM; [reflexivity|]. rewrite <- not_true_iff_false in X. exfalso. apply X. apply existsb_exists. exists x. rewrite EM. auto.
  - intros (Q & U & -> & x & X1 & X2). exists p. split; [exact Q|]. apply in_flat_map. exists u. split; [apply usis_in; lia|]. unfold block_at. cbv zeta. destruct (forallb empty _) eqn:B; [|left; reflexivity].
    rewrite forallb_forall in B. rewrite (B x X1) in X2. discriminate.
Qed.
Print Assumptions C117_exactly_partial.

(** Some diagnoses are in no record: one without data and one with USI 0. *)
Definition no_bytes (f : writer) : Prop :=
  forall b len pos, 0 <= pos <= len -> len <= Z.of_nat (length b) -> len < 65534 -> exists b', f (mkWr (Some b) len pos) = Ok (mkWr (Some b') len pos).
Theorem C117_left_out_refuted : exists st,
  dreach 4 100 2 known st /\ stored 4 st kA = Some [Manufacturer 0 [1; 2]; Manufacturer 7 []] /\
  In kA (places (run 1 2 5 ex_history) None 0 1 1 63500) /\
  exists f, read_diag (run 1 2 5 ex_history) (lists_of 4 st) None 0 1 1 63500 = Some f /\ no_bytes f.
Proof.
  set (xs := plugged ++ [CAdd srcU 0 0 0 0 0 0 7 0 None true true; add_usi 0]).
  assert (K : Forall known xs) by (unfold xs, known; cbn [app plugged]; proper_tac).
  destruct (drun 4 100 xs (dinit 4 2) []) as [[st tr]|] eqn:E; [|vm_compute in E; discriminate]. exists st.
  assert (R : dreach 4 100 2 known st) by (exists xs, tr; split; [exact K|exact E]). split; [exact R|].
  assert (ST : forall p, stored_at 4 st p = if key_eqb p kA then [Manufacturer 0 [1; 2]; Manufacturer 7 []] else []).
  { vm_compute in E. injection E as <- _. intros [[a s] t]. unfold stored_at, stored. cbn [cells find_cell c_use c_key andb items]. 
    destruct (key_eqb (a, s, t) kA) eqn:Q.
    - unfold key_eqb, kA in Q. apply andb_prop in Q. destruct Q as [Q Q3]. apply andb_prop in Q. destruct Q as [Q1 Q2]. apply Z.eqb_eq in Q1, Q2, Q3. subst. reflexivity.
    - replace (key_eqb (0, 1, 1) (a, s, t)) with false by (unfold key_eqb, kA in *; rewrite (Z.eqb_sym 0), !(Z.eqb_sym 1); symmetry; exact Q).
      destruct (key_eqb (0, 1, 2) (a, s, t)); reflexivity. }
  split; [vm_compute in E; injection E as <- _; reflexivity|]. split; [vm_compute; tauto|].
  assert (PO : forall p, In p (places (run 1 2 5 ex_history) (option_map conf None) 0 1 1 63500) -> place_ok p).
  { intros p I. vm_compute in I. repeat (destruct I as [<-|I]; [unfold place_ok; lia|]). destruct I. }
  destruct (C117_read_partial 1 2 5 ex_history 4 100 2 st None 0 1 1 63500) as (f & RE & _ & A); [lia|lia|exact R|discriminate|right; reflexivity|].
  exists f. split; [exact RE|]. cbv zeta in A. specialize (A PO).
  assert (NIL : diag_answer (run 1 2 5 ex_history) (stored_at 4 st) (option_map conf None) 0 1 1 63500 = []).
  { destruct (diag_answer (run 1 2 5 ex_history) (stored_at 4 st) (option_map conf None) 0 1 1 63500) as [|[[p u] ds] r] eqn:Q; [reflexivity|]. exfalso.
    assert (I : In (p, u, ds) (diag_answer (run 1 2 5 ex_history) (stored_at 4 st) (option_map conf None) 0 1 1 63500)) by (rewrite Q; left; reflexivity).
    apply C117_exactly_partial in I. destruct I as (_ & U & -> & x & X1 & X2). apply filter_In in X1. destruct X1 as [X1 X3]. rewrite ST in X1.
    apply andb_prop in X3. destruct X3 as [_ X3]. apply Z.eqb_eq in X3. destruct (key_eqb p kA); [|destruct X1]. destruct X1 as [<-|[<-|[]]]; cbn [usi_of empty] in X2, X3; [lia|discriminate]. }
  rewrite NIL in A. intros b len pos P L N. pose proof (A b len pos pos) as Q. cbn [map sum Z.of_nat] in Q. rewrite Z.add_0_r in Q. destruct Q as (b' & E2 & _); try lia. exists b'. exact E2.
Qed.
Print Assumptions C117_left_out_refuted.

(** A device, a connection and diagnoses of several kinds: the hypotheses hold and the
    answers are not trivial. *)
Lemma blocks_few : forall k p l us, StronglySorted Z.lt us -> forallb (fun u => (1 <=? u) && (u <=? 65534)) us = true ->
  forallb (fun x => existsb (Z.eqb (usi_of x)) us) l = true -> blocks k p l = flat_map (block_at k p l) us.
Proof.
  intros k p l us SU RU CU. unfold blocks. apply flat_sorted; [exact usis_sorted|exact SU| |].
  - intros u I. rewrite forallb_forall in RU. specialize (RU u I). apply usis_in. apply andb_prop in RU. lia.
  - intros u _ NI. unfold block_at. replace (filter (fun x => k x && (usi_of x =? u)) l) with (@nil diag); [reflexivity|]. symmetry.
    induction l as [|x l IH]; [reflexivity|]. cbn [filter forallb] in *. apply andb_prop in CU. destruct CU as [C1 C2]. destruct (Z.eqb_spec (usi_of x) u) as [Q|Q].
    + exfalso. apply NI. apply existsb_exists in C1. destruct C1 as (v & V & C1). apply Z.eqb_eq in C1. congruence.
    + rewrite andb_false_r. exact (IH C2).
Qed.
Example C117_example :
  let d := run 1 2 5 ex_history in let i := expecting 1 2 5 ex_conf in
  let fault := Standard 32770 (mkStd 4 (props 0 0 0 1 1) 9 0 7 0) in
  let maint := Standard 32770 (mkStd 4 (props 0 0 1 1 1) 5 0 7 0) in
  sizes 1 2 5 i /\
  exists st, dreach 4 100 2 known st /\
  (forall p, In p (places d (Some (conf i)) 0 1 1 57356) -> place_ok p) /\ length (places d (Some (conf i)) 0 1 1 57356) = 3%nat /\
  diag_answer d (stored_at 4 st) (Some (conf i)) 0 1 1 57356 = [(kA, 7, [Manufacturer 7 [1; 2]]); (kA, 32770, [maint; fault])] /\
  diag_answer d (stored_at 4 st) (Some (conf i)) 0 1 1 57355 = [(kA, 7, [Manufacturer 7 [1; 2]]); (kA, 32770, [fault])] /\
  diag_answer d (stored_at 4 st) (Some (conf i)) 0 1 1 57354 = [(kA, 32770, [maint; fault])].
Proof.
  cbv zeta. split; [exact (proj1 C113_example)|]. set (xs := plugged ++ [add_fault srcA 9; add_usi 7; add_maint srcA 5]).
  assert (K : Forall known xs) by (unfold xs, known; cbn [app plugged]; proper_tac).
  destruct (drun 4 100 xs (dinit 4 2) []) as [[st tr]|] eqn:E; [|vm_compute in E; discriminate]. exists st.
  split; [exists xs, tr; split; [exact K|exact E]|].
  assert (PL : forall idx, idx / 256 = 224 -> places (run 1 2 5 ex_history) (Some (conf (expecting 1 2 5 ex_conf))) 0 1 1 idx = [(0, 1, 1); (0, 1, 4); (0, 1, 5)]).
  { intros idx I. unfold places. rewrite I. vm_compute. reflexivity. }
  rewrite PL by reflexivity. split; [intros p I; repeat (destruct I as [<-|I]; [unfold place_ok; lia|]); destruct I|]. split; [reflexivity|].
  unfold diag_answer. rewrite !PL by reflexivity. cbn [flat_map].
  assert (S1 : stored_at 4 st (0, 1, 1) = [Standard 32770 (mkStd 4 (props 0 0 1 1 1) 5 0 7 0); Manufacturer 7 [1; 2]; Standard 32770 (mkStd 4 (props 0 0 0 1 1) 9 0 7 0)])
    by (vm_compute in E; injection E as <- _; reflexivity).
  assert (S2 : stored_at 4 st (0, 1, 4) = []) by (vm_compute in E; injection E as <- _; reflexivity).
  assert (S3 : stored_at 4 st (0, 1, 5) = []) by (vm_compute in E; injection E as <- _; reflexivity).
  rewrite S1, S2, S3. clear S1 S2 S3. assert (SS : StronglySorted Z.lt [7; 32770]) by (repeat constructor; lia).
  set (L := [Standard 32770 (mkStd 4 (props 0 0 1 1 1) 5 0 7 0); Manufacturer 7 [1; 2]; Standard 32770 (mkStd 4 (props 0 0 0 1 1) 9 0 7 0)]).
  assert (BL : forall k, blocks k (0, 1, 1) L ++ blocks k (0, 1, 4) [] ++ blocks k (0, 1, 5) [] ++ [] = flat_map (block_at k (0, 1, 1) L) [7; 32770]).
  { intros k. rewrite (blocks_few k (0, 1, 1) L [7; 32770] SS eq_refl eq_refl), (blocks_few k (0, 1, 4) [] [] (SSorted_nil _) eq_refl eq_refl), (blocks_few k (0, 1, 5) [] [] (SSorted_nil _) eq_refl eq_refl).
    cbn [flat_map app]. apply app_nil_r. }
  rewrite (BL (kind 57356)), (BL (kind 57355)), (BL (kind 57354)). split; [reflexivity|]. split; reflexivity.
Qed.
