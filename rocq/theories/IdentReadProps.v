(** Identification data (C116). *)
From Coq Require Import List ZArith Arith Bool Lia.
From Verif Require Import Base BlockModel BlockReadLemmas BlockWriteProps IdentModel IdentProps DiffModel DiffProps DiffBlockProps IdentReadModel.
Import ListNotations.
Local Open Scope Z_scope.

(** * Specification *)

(** How a controller reads the blocks: number of APIs, each with its modules, each with
    slot, ident number and submodules, each with subslot and ident number. *)
Definition get_csub : reader csub := rdo t <- get_u16; rdo id <- get_u32; rret (t, id).
Definition get_cmod : reader cmod := rdo s <- get_u16; rdo id <- get_u32; rdo l <- counted get_csub; rret (s, id, l).
Definition get_capi : reader capi := rdo a <- get_u32; rdo l <- counted get_cmod; rret (a, l).
Definition get_ident_block : reader (bhead * list capi) := get_block (counted get_capi).
Definition get_api_block : reader (bhead * list Z) := get_block (counted get_u32).

(** What is plugged, in the same form. *)
Definition sub_of (z : rsub) : csub := (rs_num z, rs_ident z).
Definition mod_of (w : row) : cmod := (w_slot w, w_ident w, map sub_of (w_subs w)).
Definition mods_in (d : dev) (a : Z) : list cmod := map mod_of (filter (fun w => w_api w =? a) (table d)).

(** The part of what is plugged that a connection expects (slots and subslots, whatever
    the ident numbers). *)
Definition plugged_mod (d : dev) (a : Z) (m : cmod) : option cmod :=
  let '(s, _, l) := m in
  match row_at d a s with
  | None => None
  | Some w => Some (s, w_ident w, flat_map (fun e => opt (option_map sub_of (sub_in d a s (fst e)))) l)
  end.
Definition plugged_api (d : dev) (x : capi) : option capi :=
  if existsb (Z.eqb (fst x)) (apis d) then Some (fst x, flat_map (fun m => opt (plugged_mod d (fst x) m)) (snd x)) else None.
Definition plugged_of (d : dev) (l : list capi) : list capi := flat_map (fun x => opt (plugged_api d x)) l.

(** The answer to a read of real identification data; None: no data. *)
Definition real_answer (d : dev) (ar : option rar) (a s t idx : Z) : option (list capi) :=
  if idx =? 32769 (* 0x8001 *) then
    match row_at d a s, sub_in d a s t with Some w, Some z => Some [(a, [(s, w_ident w, [sub_of z])])] | _, _ => None end
  else if idx =? 49153 (* 0xC001 *) then match row_at d a s with Some w => Some [(a, [mod_of w])] | None => None end
  else if idx =? 57345 (* 0xE001 *) then
    match ar with Some r => if r_iosar r then None else Some (plugged_of d (conf (r_exp r))) | None => None end
  else if existsb (Z.eqb a) (apis d) then Some [(a, mods_in d a)] else None.

(** The answer to a read of expected identification data. *)
Definition exp_answer (l : list capi) (a s t idx : Z) : list capi :=
  if idx =? 57344 (* 0xE000 *) then l
  else match find (fun x : capi => fst x =? a) l with
  | None => []
  | Some x =>
    match find (fun m : cmod => fst (fst m) =? s) (snd x) with
    | None => []
    | Some (s, id, subs) =>
      if idx =? 49152 (* 0xC000 *) then [(a, [(s, id, subs)])]
      else match find (fun e : csub => fst e =? t) subs with None => [] | Some e => [(a, [(s, id, [e])])] end
    end
  end.

Definition real_index (idx : Z) : Prop := In idx [32769; 49153; 57345; 61440].
Definition exp_index (idx : Z) : Prop := In idx [32768; 49152; 57344].

(** Nothing is added to the response, nothing before or behind the place is changed. *)
Definition no_data (f : writer) : Prop :=
  forall b len pos, 0 <= pos <= len -> len <= Z.of_nat (length b) -> len < 65534 ->
  exists b', f (mkWr (Some b) len pos) = Ok (mkWr (Some b') len pos) /\ length b' = length b /\
    forall i, (i < Z.to_nat pos)%nat \/ (Z.to_nat len <= i)%nat -> nth i b' 0 = nth i b 0.

(** The number of bytes behind the header. *)
Definition cmod_size (m : cmod) : nat := (8 + 6 * length (snd m))%nat.
Definition capi_size (x : capi) : nat := (6 + sum (map cmod_size (snd x)))%nat.
Definition conf_size (l : list capi) : nat := (2 + sum (map capi_size l))%nat.

(** * Bytes *)

Definition ecsub (be : bool) (x : csub) : list Z := e16 be (fst x) ++ e32 be (snd x).
Definition ecmod (be : bool) (m : cmod) : list Z :=
  let '(s, id, l) := m in e16 be s ++ e32 be id ++ e16 be (Z.of_nat (length l)) ++ flat_map (ecsub be) l.
Definition ecapi (be : bool) (x : capi) : list Z := e32 be (fst x) ++ e16 be (Z.of_nat (length (snd x))) ++ flat_map (ecmod be) (snd x).
Definition econf (be : bool) (l : list capi) : list Z := e16 be (Z.of_nat (length l)) ++ flat_map (ecapi be) l.

Definition csub_ok (x : csub) : Prop := 0 <= fst x < 65536 /\ 0 <= snd x < 4294967296.
Definition cmod_ok (m : cmod) : Prop :=
  let '(s, id, l) := m in 0 <= s < 65536 /\ 0 <= id < 4294967296 /\ Z.of_nat (length l) < 65536 /\ forall e, In e l -> csub_ok e.
Definition capi_ok (x : capi) : Prop := 0 <= fst x < 4294967296 /\ Z.of_nat (length (snd x)) < 65536 /\ forall m, In m (snd x) -> cmod_ok m.
Lemma conf_ok_in : forall l, conf_ok l -> forall x, In x l -> capi_ok x.
Proof.
  intros l (_ & H) x I. destruct (H x I) as (A & B & C). split; [exact A|]. split; [exact B|]. intros [[s id] e] J.
  destruct (C s id e J) as (D & E & F & G). split; [exact D|]. split; [exact E|]. split; [exact F|]. intros [t k] K. exact (G t k K).
Qed.

Lemma ecsub_length : forall be x, length (ecsub be x) = 6%nat.
Proof. intros. unfold ecsub. rewrite app_length, e16_length, e32_length. reflexivity. Qed.
Lemma sum_const : forall A n (l : list A), sum (map (fun _ => n) l) = (n * length l)%nat.
Proof. intros A n l. induction l as [|x l IH]; cbn [map sum fold_right length]; [lia|]. unfold sum in IH. lia. Qed.
Lemma ecmod_length : forall be m, length (ecmod be m) = cmod_size m.
Proof.
  intros be [[s id] l]. unfold ecmod, cmod_size. cbn [snd]. rewrite !app_length, !e16_length, e32_length.
  rewrite (sum_map_flat _ (ecsub be) (fun _ => 6%nat)) by (intros; apply ecsub_length). rewrite sum_const. lia.
Qed.
Lemma ecapi_length : forall be x, length (ecapi be x) = capi_size x.
Proof.
  intros be x. unfold ecapi, capi_size. rewrite !app_length, e16_length, e32_length.
  rewrite (sum_map_flat _ (ecmod be) cmod_size) by (intros; apply ecmod_length). lia.
Qed.
Lemma econf_length : forall be l, length (econf be l) = conf_size l.
Proof.
  intros be l. unfold econf, conf_size. rewrite app_length, e16_length.
  rewrite (sum_map_flat _ (ecapi be) capi_size) by (intros; apply ecapi_length). lia.
Qed.

(** * Reading *)

Lemma dec_same : forall A be (m : reader A) (e : A -> list Z) l, Z.of_nat (length l) < 65536 ->
  (forall x, In x l -> dec be be m (e x) x) -> dec be be (counted m) (e16 be (Z.of_nat (length l)) ++ flat_map e l) l.
Proof. intros A be m e l L H. rewrite <- (map_id l) at 3. apply dec_counted; assumption. Qed.
Lemma dec_csub : forall be x, csub_ok x -> dec be be get_csub (ecsub be x) x.
Proof.
  intros be [t id] (A & B). unfold get_csub, ecsub. cbn [fst snd] in *. eapply dec_bind; [apply dec_u16; exact A|].
  eapply dec_last; [apply dec_u32; exact B|]. reflexivity.
Qed.
Lemma dec_cmod : forall be x, cmod_ok x -> dec be be get_cmod (ecmod be x) x.
Proof.
  intros be [[s id] l] (A & B & C & D). unfold get_cmod, ecmod. eapply dec_bind; [apply dec_u16; exact A|].
  eapply dec_bind; [apply dec_u32; exact B|].
  eapply dec_last; [apply dec_same; [exact C|intros e I; apply dec_csub; exact (D e I)]|]. reflexivity.
Qed.
Lemma dec_capi : forall be x, capi_ok x -> dec be be get_capi (ecapi be x) x.
Proof.
  intros be [a l] (A & B & C). unfold get_capi, ecapi. cbn [fst snd] in *. eapply dec_bind; [apply dec_u32; exact A|].
  eapply dec_last; [apply dec_same; [exact B|intros e I; apply dec_cmod; exact (C e I)]|]. reflexivity.
Qed.
Lemma dec_conf : forall be l, conf_ok l -> dec be be (counted get_capi) (econf be l) l.
Proof. intros be l H. apply dec_same; [exact (proj1 H)|]. intros x I. apply dec_capi. exact (conf_ok_in l H x I). Qed.

(** * Blocks with a version *)

Definition eblock_v (be : bool) (ty vl : Z) (bs : list Z) : list Z := e16 be ty ++ e16 be (2 + Z.of_nat (length bs)) ++ [1; vl] ++ bs.
Definition put_block_v (be : bool) (ty vl : Z) (body : writer) : writer := fun w =>
  do w1 <- put_block_header be ty 0 1 vl w; do w2 <- body w1; put_block_len be (w_pos w) w2.

Lemma enc_block_v : forall be ty vl body bs, 0 <= ty < 65536 -> byte vl -> Z.of_nat (length bs) < 65534 -> enc body bs ->
  enc (put_block_v be ty vl body) (eblock_v be ty vl bs).
Proof.
  intros be ty vl body bs T V Lb B b len pos P L M N. unfold put_block_v. cbn [w_pos].
  assert (Le : length (eblock_v be ty vl bs) = (6 + length bs)%nat) by (unfold eblock_v; rewrite !app_length, !e16_length; reflexivity).
  rewrite Le in L.
  assert (EH : enc (put_block_header be ty 0 1 vl) (e16 be ty ++ e16 be (0 + 2) ++ [1; vl])) by (apply enc_header; unfold byte in *; lia).
  rewrite EH by (rewrite ?app_length, ?e16_length; cbn [length]; lia). cbn [obind].
  assert (LH : length (e16 be ty ++ e16 be (0 + 2) ++ [1; vl]) = 6%nat) by (rewrite !app_length, !e16_length; reflexivity).
  rewrite LH.
  rewrite B by (rewrite ?put_at_length; lia). cbn [obind].
  replace (Z.to_nat (pos + Z.of_nat 6)) with (Nat.add (Z.to_nat pos) (length (e16 be ty ++ e16 be (0 + 2) ++ [1; vl]))) by lia.
  rewrite put_at_app by lia.
  unfold put_block_len. cbn [w_pos w_buf w_len].
  replace (u16 (pos + Z.of_nat 6 + Z.of_nat (length bs) - (pos + 4))) with (2 + Z.of_nat (length bs)) by (rewrite u16_id; lia).
  rewrite (u16_id (pos + 2)) by lia.
  assert (E2 : enc (put_u16 be (2 + Z.of_nat (length bs))) (e16 be (2 + Z.of_nat (length bs)))) by (apply enc_u16; lia).
  rewrite E2 by (rewrite ?put_at_length, ?app_length, ?e16_length; rewrite ?app_length, ?e16_length; cbn [length]; lia).
  cbn [obind w_buf w_len].
  rewrite <- !app_assoc.
  replace (Z.to_nat (pos + 2)) with (Z.to_nat pos + length (e16 be ty))%nat by (rewrite e16_length; lia).
  rewrite put_at_over; [|rewrite !e16_length; reflexivity|rewrite !app_length, !e16_length; cbn [length]; lia].
  rewrite Le. unfold eblock_v.
  replace (pos + Z.of_nat 6 + Z.of_nat (length bs)) with (pos + Z.of_nat (6 + length bs)) by lia. reflexivity.
Qed.

Lemma dec_block_v : forall A be (m : reader A) ty vl bs x, 0 <= ty < 65536 -> Z.of_nat (length bs) < 65534 -> dec be be m bs x ->
  dec be be (get_block m) (eblock_v be ty vl bs) (mkBhead ty (2 + Z.of_nat (length bs)) 1 vl, x).
Proof.
  intros A be m ty vl bs x T L D. unfold get_block, eblock_v.
  replace (e16 be ty ++ e16 be (2 + Z.of_nat (length bs)) ++ [1; vl] ++ bs)
    with ((e16 be ty ++ e16 be (2 + Z.of_nat (length bs)) ++ [1; vl]) ++ bs) by (rewrite <- !app_assoc; reflexivity).
  eapply dec_bind; [apply dec_header; lia|]. eapply dec_last; [exact D|]. reflexivity.
Qed.

(** The block that is left out if its body is empty. *)
Definition put_block_if (be : bool) (ty vl : Z) (body : writer) : writer := fun w =>
  do w1 <- put_block_header be ty 0 1 vl w; do w2 <- body w1;
  if w_pos w1 <? w_pos w2 then put_block_len be (w_pos w) w2 else Ok (mkWr (w_buf w2) (w_len w2) (w_pos w)).

Lemma enc_block_if : forall be ty vl body bs, 0 <= ty < 65536 -> byte vl -> (0 < length bs)%nat -> Z.of_nat (length bs) < 65534 -> enc body bs ->
  enc (put_block_if be ty vl body) (eblock_v be ty vl bs).
Proof.
  intros be ty vl body bs T V NE Lb B b len pos P L M N. rewrite <- (enc_block_v be ty vl body bs T V Lb B b len pos P L M N).
  assert (Le : length (eblock_v be ty vl bs) = (6 + length bs)%nat) by (unfold eblock_v; rewrite !app_length, !e16_length; reflexivity).
  rewrite Le in L. unfold put_block_if, put_block_v.
  assert (EH : enc (put_block_header be ty 0 1 vl) (e16 be ty ++ e16 be (0 + 2) ++ [1; vl])) by (apply enc_header; unfold byte in *; lia).
  rewrite EH by (rewrite ?app_length, ?e16_length; cbn [length]; lia). cbn [obind].
  assert (LH : length (e16 be ty ++ e16 be (0 + 2) ++ [1; vl]) = 6%nat) by (rewrite !app_length, !e16_length; reflexivity).
  rewrite LH. rewrite B by (rewrite ?put_at_length; lia). cbn [obind w_pos].
  destruct (Z.ltb_spec (pos + Z.of_nat 6) (pos + Z.of_nat 6 + Z.of_nat (length bs))); [reflexivity|lia].
Qed.

Lemma inside_header : forall be ty vl, stays_inside (put_block_header be ty 0 1 vl).
Proof.
  intros. unfold put_block_header. refine (inside_seq _ _ (inside_u16 _ _) _). refine (inside_seq _ _ (inside_u16 _ _) _).
  refine (inside_seq _ _ (inside_byte _) (inside_byte _)).
Qed.

(** A number that is written again at a place behind the start. *)
Lemma inside_again : forall be v b len at_pos, 0 <= at_pos -> len <= Z.of_nat (length b) -> len < 65534 ->
  exists b' p', put_u16 be v (mkWr (Some b) len at_pos) = Ok (mkWr (Some b') len p') /\ length b' = length b /\
    forall i, (i < Z.to_nat at_pos)%nat \/ (Z.to_nat len <= i)%nat -> nth i b' 0 = nth i b 0.
Proof.
  intros be v b len p P L N. destruct (Z.le_gt_cases p len) as [H|H].
  - destruct (inside_u16 be v b len p ltac:(lia) L N) as (b2 & p2 & E2 & Q2 & L2 & K2). exists b2, p2. auto.
  - exists b, p. split; [|split; [reflexivity|reflexivity]].
    assert (Y : forall x, put_byte x (mkWr (Some b) len p) = Ok (mkWr (Some b) len p)).
    { intros x. unfold put_byte. cbn [w_len w_pos]. destruct (Z.ltb_spec len (p + 1)); [reflexivity|lia]. }
    unfold put_u16, wseq. destruct be; rewrite Y; cbn [obind]; apply Y.
Qed.

Lemma inside_len : forall be pos b len p1, 0 <= pos <= p1 -> p1 <= len -> len <= Z.of_nat (length b) -> len < 65534 ->
  exists b', put_block_len be pos (mkWr (Some b) len p1) = Ok (mkWr (Some b') len p1) /\ length b' = length b /\
    forall i, (i < Z.to_nat pos)%nat \/ (Z.to_nat len <= i)%nat -> nth i b' 0 = nth i b 0.
Proof.
  intros be pos b len p1 P Q L N. unfold put_block_len. cbn [w_buf w_len w_pos]. rewrite (u16_id (pos + 2)) by lia.
  destruct (inside_again be (u16 (p1 - (pos + 4))) b len (pos + 2) ltac:(lia) L N) as (b2 & p2 & E2 & L2 & K2).
  rewrite E2. cbn [obind w_buf w_len]. exists b2. split; [reflexivity|]. split; [exact L2|]. intros i I. apply K2. lia.
Qed.

Lemma inside_block_v : forall be ty vl body, stays_inside body -> stays_inside (put_block_v be ty vl body).
Proof.
  intros be ty vl body B b len pos P L N. unfold put_block_v.
  destruct (inside_header be ty vl b len pos P L N) as (b1 & p1 & E1 & Q1 & L1 & K1). rewrite E1. cbn [obind].
  destruct (B b1 len p1 ltac:(lia) ltac:(lia) N) as (b2 & p2 & E2 & Q2 & L2 & K2). rewrite E2. cbn [obind w_pos].
  destruct (inside_len be pos b2 len p2 ltac:(lia) ltac:(lia) ltac:(lia) N) as (b3 & E3 & L3 & K3). exists b3, p2. split; [exact E3|].
  split; [lia|]. split; [congruence|]. intros i I. rewrite K3, K2, K1 by lia. reflexivity.
Qed.
Lemma inside_block_if : forall be ty vl body, stays_inside body -> stays_inside (put_block_if be ty vl body).
Proof.
  intros be ty vl body B b len pos P L N. unfold put_block_if.
  destruct (inside_header be ty vl b len pos P L N) as (b1 & p1 & E1 & Q1 & L1 & K1). rewrite E1. cbn [obind].
  destruct (B b1 len p1 ltac:(lia) ltac:(lia) N) as (b2 & p2 & E2 & Q2 & L2 & K2). rewrite E2. cbn [obind w_pos].
  destruct (p1 <? p2).
  - destruct (inside_len be pos b2 len p2 ltac:(lia) ltac:(lia) ltac:(lia) N) as (b3 & E3 & L3 & K3). exists b3, p2. split; [exact E3|].
    split; [lia|]. split; [congruence|]. intros i I. rewrite K3, K2, K1 by lia. reflexivity.
  - cbn [w_buf w_len]. exists b2, pos. split; [reflexivity|]. split; [lia|]. split; [congruence|]. intros i I. rewrite K2, K1 by lia. reflexivity.
Qed.
Lemma no_data_if : forall be ty vl body, (forall w, body w = Ok w) -> no_data (put_block_if be ty vl body).
Proof.
  intros be ty vl body B b len pos P L N. unfold put_block_if.
  destruct (inside_header be ty vl b len pos P L N) as (b1 & p1 & E1 & Q1 & L1 & K1). rewrite E1. cbn [obind]. rewrite B. cbn [obind w_pos].
  rewrite Z.ltb_irrefl. cbn [w_buf w_len]. exists b1. auto.
Qed.

(** * Counters *)

Lemma put_some_enc : forall A B (f : A -> option writer) (v : A -> option B) (e : B -> list Z) l,
  (forall x, In x l -> match v x with Some y => exists g, f x = Some g /\ enc g (e y) | None => f x = None end) ->
  forall n b len pos, 0 <= n -> n + Z.of_nat (length (flat_map (fun x => opt (v x)) l)) < 65536 ->
  0 <= pos -> pos + Z.of_nat (length (flat_map e (flat_map (fun x => opt (v x)) l))) <= len -> len <= Z.of_nat (length b) -> len < 65536 ->
  put_some f l n (mkWr (Some b) len pos)
  = Ok (n + Z.of_nat (length (flat_map (fun x => opt (v x)) l)),
        mkWr (Some (put_at b (Z.to_nat pos) (flat_map e (flat_map (fun x => opt (v x)) l)))) len
          (pos + Z.of_nat (length (flat_map e (flat_map (fun x => opt (v x)) l))))).
Proof.
  intros A B f v e l. induction l as [|x l IH]; intros H n b len pos Hn HL P L M N.
  - cbn [put_some flat_map length]. unfold put_at. cbn [length app]. rewrite Nat.add_0_r, firstn_skipn, !Z.add_0_r. reflexivity.
  - cbn [put_some flat_map] in *. pose proof (H x (or_introl eq_refl)) as HX. destruct (v x) as [y|].
    + destruct HX as (g & -> & EG). cbn [opt app flat_map length] in *. rewrite app_length in L.
      rewrite EG by lia. cbn [obind]. rewrite u16_id by lia.
      rewrite IH; [|intros z I; apply H; right; exact I|lia|lia|lia|lia|rewrite put_at_length; lia|lia].
      f_equal. f_equal; [lia|]. replace (Z.to_nat (pos + Z.of_nat (length (e y)))) with (Z.to_nat pos + length (e y))%nat by lia.
      rewrite put_at_app by lia. rewrite app_length. f_equal. lia.
    + rewrite HX. cbn [opt app] in *. apply IH; auto. intros z I. apply H. right. exact I.
Qed.

Lemma enc_counted : forall A B be (f : A -> option writer) (v : A -> option B) (e : B -> list Z) l,
  Z.of_nat (length (flat_map (fun x => opt (v x)) l)) < 65536 ->
  (forall x, In x l -> match v x with Some y => exists g, f x = Some g /\ enc g (e y) | None => f x = None end) ->
  enc (put_counted be f l) (e16 be (Z.of_nat (length (flat_map (fun x => opt (v x)) l))) ++ flat_map e (flat_map (fun x => opt (v x)) l)).
Proof.
  intros A B be f v e l HL H b len pos P L M N. rewrite app_length, e16_length in *. unfold put_counted.
  assert (E0 : enc (put_u16 be 0) (e16 be 0)) by (apply enc_u16; lia). rewrite E0 by (rewrite ?e16_length; lia). cbn [obind]. rewrite e16_length.
  rewrite (put_some_enc A B f v e l H 0) by (try (rewrite put_at_length by (rewrite e16_length; lia)); lia). cbn [obind w_pos]. rewrite Z.add_0_l.
  set (ys := flat_map (fun x => opt (v x)) l) in *. clearbody ys.
  replace (Z.to_nat (pos + Z.of_nat 2)) with (Z.to_nat pos + length (e16 be 0))%nat by (rewrite e16_length; lia).
  rewrite put_at_app by (rewrite e16_length; lia). unfold patch_u16. cbn [w_buf w_len w_pos].
  assert (E2 : enc (put_u16 be (Z.of_nat (length ys))) (e16 be (Z.of_nat (length ys)))) by (apply enc_u16; lia).
  rewrite E2 by (try (rewrite put_at_length by (rewrite app_length, e16_length; lia)); rewrite ?e16_length; lia). cbn [obind w_buf w_len].
  pose proof (put_at_over b (Z.to_nat pos) [] (e16 be 0) (e16 be (Z.of_nat (length ys))) (flat_map e ys)) as PO.
  cbn [app length] in PO. rewrite Nat.add_0_r in PO. rewrite PO; [|rewrite !e16_length; reflexivity|rewrite app_length, e16_length; lia].
  f_equal. f_equal. lia.
Qed.

Lemma enc_one : forall B be g (e : B -> list Z) y, enc g (e y) -> enc (put_u16 be 1 ;; g) (e16 be (Z.of_nat (length [y])) ++ flat_map e [y]).
Proof. intros B be g e y H. cbn [flat_map length]. rewrite app_nil_r. apply enc_seq; [apply enc_u16; lia|exact H]. Qed.

Lemma enc_all : forall A B (f : A -> writer) (v : A -> B) (e : B -> list Z) l, (forall x, In x l -> enc (f x) (e (v x))) -> enc (put_all f l) (flat_map e (map v l)).
Proof.
  intros A B f v e l. induction l as [|x l IH]; intros H; cbn [put_all map flat_map]; [exact enc_skip|].
  apply enc_seq; [apply H; left; reflexivity|apply IH; intros y I; apply H; right; exact I].
Qed.

Lemma inside_some : forall A (f : A -> option writer) l, (forall x g, In x l -> f x = Some g -> stays_inside g) ->
  forall n b len pos, 0 <= pos <= len -> len <= Z.of_nat (length b) -> len < 65534 ->
  exists n' b' pos', put_some f l n (mkWr (Some b) len pos) = Ok (n', mkWr (Some b') len pos') /\ pos <= pos' <= len /\
    length b' = length b /\ forall i, (i < Z.to_nat pos)%nat \/ (Z.to_nat len <= i)%nat -> nth i b' 0 = nth i b 0.
Proof.
  intros A f l. induction l as [|x l IH]; intros H n b len pos P L N; cbn [put_some].
  - exists n, b, pos. split; [reflexivity|]. split; [lia|]. auto.
  - assert (H' : forall x g, In x l -> f x = Some g -> stays_inside g) by (intros y g I E; exact (H y g (or_intror I) E)).
    destruct (f x) as [g|] eqn:F; [|exact (IH H' n b len pos P L N)].
    destruct (H x g (or_introl eq_refl) F b len pos P L N) as (b1 & p1 & E1 & Q1 & L1 & K1). rewrite E1. cbn [obind].
    destruct (IH H' (u16 (n + 1)) b1 len p1 ltac:(lia) ltac:(lia) N) as (n2 & b2 & p2 & E2 & Q2 & L2 & K2).
    exists n2, b2, p2. split; [exact E2|]. split; [lia|]. split; [congruence|]. intros i I. rewrite K2, K1 by lia. reflexivity.
Qed.
Lemma inside_counted : forall A be (f : A -> option writer) l, (forall x g, In x l -> f x = Some g -> stays_inside g) -> stays_inside (put_counted be f l).
Proof.
  intros A be f l H b len pos P L N. unfold put_counted.
  destruct (inside_u16 be 0 b len pos P L N) as (b1 & p1 & E1 & Q1 & L1 & K1). rewrite E1. cbn [obind].
  destruct (inside_some A f l H 0 b1 len p1 ltac:(lia) ltac:(lia) N) as (n2 & b2 & p2 & E2 & Q2 & L2 & K2). rewrite E2. cbn [obind w_pos].
  unfold patch_u16. cbn [w_buf w_len w_pos].
  destruct (inside_again be n2 b2 len pos ltac:(lia) ltac:(lia) N) as (b3 & p3 & E3 & L3 & K3). rewrite E3. cbn [obind w_buf w_len].
  exists b3, p2. split; [reflexivity|]. split; [lia|]. split; [congruence|]. intros i I. rewrite K3, K2, K1 by lia. reflexivity.
Qed.
Lemma inside_all : forall A (f : A -> writer) l, (forall x, In x l -> stays_inside (f x)) -> stays_inside (put_all f l).
Proof.
  intros A f l. induction l as [|x l IH]; intros H; cbn [put_all]; [exact inside_skip|].
  refine (inside_seq _ _ (H x (or_introl eq_refl)) _). apply IH. intros y I. apply H. right. exact I.
Qed.
Lemma upto_ok : forall A n (l : list A), (n <= length l)%nat -> upto n l = Ok (firstn n l).
Proof. intros A n l H. unfold upto. apply Nat.leb_le in H. rewrite H. reflexivity. Qed.

(** * Real identification data *)

Lemma filter_opt : forall A B (p : A -> bool) (f : A -> B) l, map f (filter p l) = flat_map (fun x => opt (if p x then Some (f x) else None)) l.
Proof. intros A B p f l. induction l as [|x l IH]; [reflexivity|]. cbn [filter flat_map]. destruct (p x); cbn [map opt app]; rewrite IH; reflexivity. Qed.

Lemma enc_sub_data : forall be z, csub_ok (sub_of z) -> enc (put_subslot_data be z) (ecsub be (sub_of z)).
Proof. intros be z (A & B). apply enc_seq; [apply enc_u16; exact A|apply enc_u32; exact B]. Qed.

Lemma enc_slot_one : forall be y z, cmod_ok (rl_num y, rl_ident y, [sub_of z]) ->
  enc (put_slot_data be y (Some z) None) (ecmod be (rl_num y, rl_ident y, [sub_of z])).
Proof.
  intros be y z (A & B & C & D). unfold put_slot_data, ecmod. apply enc_seq; [apply enc_u16; exact A|]. apply enc_seq; [apply enc_u32; exact B|].
  apply (enc_one _ be _ (ecsub be)). apply enc_sub_data. apply D. left. reflexivity.
Qed.
Lemma enc_slot_all : forall be y, cmod_ok (rl_num y, rl_ident y, map sub_of (filter rs_use (rl_subs y))) ->
  enc (put_slot_data be y None None) (ecmod be (rl_num y, rl_ident y, map sub_of (filter rs_use (rl_subs y)))).
Proof.
  intros be y (A & B & C & D). unfold put_slot_data, ecmod. apply enc_seq; [apply enc_u16; exact A|]. apply enc_seq; [apply enc_u32; exact B|].
  rewrite filter_opt in *. apply enc_counted; [exact C|]. intros z I. destruct (rs_use z) eqn:U; [|reflexivity].
  eexists. split; [reflexivity|]. apply enc_sub_data. apply D. apply in_flat_map. exists z. rewrite U. split; [exact I|left; reflexivity].
Qed.
Lemma enc_slot_exp : forall be y m, (xm_n m <= length (xm_subs m))%nat ->
  let c := (rl_num y, rl_ident y, flat_map (fun e => opt (option_map sub_of (get_sub y (fst e)))) (map csub_of (firstn (xm_n m) (xm_subs m)))) in
  cmod_ok c -> enc (put_slot_data be y None (Some m)) (ecmod be c).
Proof.
  intros be y m L c. unfold c. rewrite flat_map_map. cbn [csub_of fst]. intros (A & B & C & D). unfold put_slot_data, ecmod.
  apply enc_seq; [apply enc_u16; exact A|]. apply enc_seq; [apply enc_u32; exact B|].
  eapply enc_ext; [intros w; rewrite upto_ok by exact L; cbn [obind]; reflexivity|].
  apply (enc_counted _ _ be _ (fun e => option_map sub_of (get_sub y (xs_num e)))); [exact C|].
  intros e I. destruct (get_sub y (xs_num e)) as [z|] eqn:G; [|reflexivity]. cbn [option_map].
  eexists. split; [reflexivity|]. apply enc_sub_data. apply D. apply in_flat_map. exists e. rewrite G. split; [exact I|left; reflexivity].
Qed.

Lemma enc_api_one : forall be x y sub c, capi_ok (ra_num x, [c]) -> enc (put_slot_data be y sub None) (ecmod be c) ->
  enc (put_api_data be x (Some y) sub None) (ecapi be (ra_num x, [c])).
Proof.
  intros be x y sub c (A & B & C) E. unfold put_api_data, ecapi. cbn [fst snd] in *. apply enc_seq; [apply enc_u32; exact A|].
  apply (enc_one _ be _ (ecmod be)). exact E.
Qed.
Definition mod_in (y : rslot) : cmod := (rl_num y, rl_ident y, map sub_of (filter rs_use (rl_subs y))).
Lemma enc_api_all : forall be x sub, capi_ok (ra_num x, map mod_in (filter rl_use (ra_slots x))) ->
  enc (put_api_data be x None sub None) (ecapi be (ra_num x, map mod_in (filter rl_use (ra_slots x)))).
Proof.
  intros be x sub (A & B & C). unfold put_api_data, ecapi. cbn [fst snd] in *. apply enc_seq; [apply enc_u32; exact A|].
  rewrite filter_opt in *. apply enc_counted; [exact B|]. intros y I. destruct (rl_use y) eqn:U; [|reflexivity].
  eexists. split; [reflexivity|]. apply enc_slot_all. apply (C (mod_in y)). apply in_flat_map. exists y. rewrite U. split; [exact I|left; reflexivity].
Qed.
Lemma num_get : forall A use num k (l : list A) x, get use num k l = Some x -> num x = k.
Proof. intros A use num k l x H. apply get_some in H. tauto. Qed.

Definition found_mod (x : rapi) (m : cmod) : option cmod :=
  let '(s, _, l) := m in
  match get_slot x s with
  | None => None
  | Some y => Some (rl_num y, rl_ident y, flat_map (fun e => opt (option_map sub_of (get_sub y (fst e)))) l)
  end.
Lemma enc_api_exp : forall be ns nt x xa, api_sizes ns nt xa ->
  let c := (ra_num x, flat_map (fun m => opt (found_mod x m)) (map cmod_of (firstn (xa_n xa) (xa_mods xa)))) in
  capi_ok c -> enc (put_api_data be x None None (Some xa)) (ecapi be c).
Proof.
  intros be ns nt x xa (S1 & S2 & S3 & S4) c. unfold c. rewrite flat_map_map. intros (A & B & C). cbn [fst snd] in *. unfold put_api_data, ecapi. cbn [fst snd].
  apply enc_seq; [apply enc_u32; exact A|].
  eapply enc_ext; [intros w; rewrite upto_ok by lia; cbn [obind]; reflexivity|].
  apply (enc_counted _ _ be _ (fun m => found_mod x (cmod_of m))); [exact B|].
  intros m I. unfold found_mod at 1. unfold cmod_of at 1. destruct (get_slot x (xm_num m)) as [y|] eqn:G; [|reflexivity]. cbn [option_map].
  eexists. split; [reflexivity|]. destruct (S4 m) as (T1 & T2 & T3).
  { rewrite <- (firstn_skipn (xa_n xa) (xa_mods xa)). apply in_or_app. left. exact I. }
  apply enc_slot_exp; [lia|]. apply C. apply in_flat_map. exists m. split; [exact I|]. unfold found_mod, cmod_of. rewrite G. left. reflexivity.
Qed.

Definition found_api (d : dev) (x : capi) : option capi :=
  match get_api d (fst x) with None => None | Some r => Some (ra_num r, flat_map (fun m => opt (found_mod r m)) (snd x)) end.
Lemma enc_real_ar : forall be na ns nt d i a s t, sizes na ns nt i ->
  let c := flat_map (fun x => opt (found_api d x)) (conf i) in
  conf_ok c -> enc (put_real_device_data be d ArOf (Some i) a s t) (econf be c).
Proof.
  intros be na ns nt d i a s t (S1 & S2 & S3 & S4) c. unfold c, conf. rewrite flat_map_map. intros K. pose proof (conf_ok_in _ K) as C. destruct K as [B _].
  unfold put_real_device_data, econf.
  eapply enc_ext; [intros w; rewrite upto_ok by lia; cbn [obind]; reflexivity|].
  apply (enc_counted _ _ be _ (fun x => found_api d (capi_of x))); [exact B|].
  intros x I. unfold found_api at 1. cbn [capi_of fst snd]. destruct (get_api d (xa_num x)) as [r|] eqn:G; [|reflexivity]. cbn [option_map].
  eexists. split; [reflexivity|].
  apply (enc_api_exp be ns nt).
  { apply S4. rewrite <- (firstn_skipn (xi_n i) (xi_apis i)). apply in_or_app. left. exact I. }
  apply C. apply in_flat_map. exists x. split; [exact I|]. unfold found_api. cbn [capi_of fst snd]. rewrite G. left. reflexivity.
Qed.

(** In terms of the table. *)
Lemma found_is_plugged : forall na ns nt d l, dev_ok na ns nt d -> flat_map (fun x => opt (found_api d x)) l = plugged_of d l.
Proof.
  intros na ns nt d l D. apply flat_map_ext_in. intros x _. f_equal. unfold found_api, plugged_api.
  destruct (get_api d (fst x)) as [r|] eqn:G.
  - pose proof (num_get _ _ _ _ _ _ G) as NR.
    assert (E : existsb (Z.eqb (fst x)) (apis d) = true) by (apply existsb_in, in_apis; congruence). rewrite E. f_equal. f_equal; [exact NR|].
    apply flat_map_ext_in. intros [[s id] e] _. f_equal. unfold found_mod, plugged_mod. rewrite row_at_get by exact (proj1 D). rewrite G.
    destruct (get_slot r s) as [y|] eqn:Y; [|reflexivity]. cbn [option_map row_of w_ident]. pose proof (num_get _ _ _ _ _ _ Y) as NY. f_equal. f_equal; [congruence|].
    apply flat_map_ext_in. intros [t k] _. rewrite (sub_in_cell na ns nt d _ _ _ D). unfold cell. rewrite G, Y. reflexivity.
  - destruct (existsb (Z.eqb (fst x)) (apis d)) eqn:E; [|reflexivity]. apply existsb_in, in_apis in E. congruence.
Qed.

Lemma mods_in_get : forall na ns nt d a x, dev_ok na ns nt d -> get_api d a = Some x -> mods_in d a = map mod_in (filter rl_use (ra_slots x)).
Proof.
  intros na ns nt d a x (N & _ & _) G. unfold mods_in, table. unfold get_api in G. revert N G. unfold uniq. induction d as [|y d IH]; intros N G; [discriminate|].
  cbn [filter get] in *.
  assert (Z0 : forall l, ~ In a (map ra_num l) -> filter (fun w => w_api w =? a) (flat_map rows l) = []).
  { intros l. induction l as [|r l IHl]; intros NI; [reflexivity|]. cbn [flat_map]. rewrite filter_app, IHl by (intros I; apply NI; right; exact I). rewrite app_nil_r.
    unfold rows. assert (NE : ra_num r <> a) by (intros E; apply NI; left; exact E). induction (filter rl_use (ra_slots r)) as [|z k IHk]; [reflexivity|].
    cbn [map filter w_api]. destruct (Z.eqb_spec (ra_num r) a); [contradiction|exact IHk]. }
  destruct (ra_use y); cbn [andb] in G; [|exact (IH N G)]. cbn [map] in N. inversion N as [|? ? N1 N2]; subst. cbn [flat_map]. rewrite filter_app.
  destruct (Z.eqb_spec (ra_num y) a) as [E|E].
  - clear IH. injection G as <-. rewrite Z0 by (rewrite <- E; exact N1). rewrite app_nil_r. unfold rows.
    induction (filter rl_use (ra_slots y)) as [|z k IHk]; [reflexivity|]. cbn [map filter w_api]. rewrite E, Z.eqb_refl. cbn [map]. rewrite <- IHk, E. reflexivity.
  - rewrite <- (IH N2 G). unfold rows at 1. replace (filter (fun w => w_api w =? a) (map _ (filter rl_use (ra_slots y)))) with (@nil row); [reflexivity|].
    induction (filter rl_use (ra_slots y)) as [|z k IHk]; [reflexivity|]. cbn [map filter w_api]. destruct (Z.eqb_spec (ra_num y) a); [contradiction|exact IHk].
Qed.

(** What [put_real_ident_data] does, as a block with a body. *)
Definition real_body (be : bool) (d : dev) (sc : scope) (ar : option rar) (a s t : Z) : writer :=
  match sc with
  | ArOf => match ar with
            | Some r => if r_iosar r then fun w => Ok w else put_real_device_data be d sc (Some (r_exp r)) a s t
            | None => fun w => Ok w
            end
  | _ => put_real_device_data be d sc None a s t
  end.
Lemma real_as_block : forall be vl d sc ar a s t w, put_real_ident_data be vl d sc ar a s t w
  = put_block_if be (match sc with DeviceOf => bt_api_data | _ => bt_real_ident end) vl (real_body be d sc ar a s t) w.
Proof.
  intros. unfold put_real_ident_data, put_block_if, real_body.
  destruct (put_block_header be (match sc with DeviceOf => bt_api_data | _ => bt_real_ident end) 0 1 vl w); cbn [obind]; try reflexivity.
  destruct sc; try reflexivity. destruct ar as [r|]; [destruct (r_iosar r)|]; reflexivity.
Qed.

Definition scope_of (idx : Z) : scope :=
  if idx =? 32769 then SubslotOf else if idx =? 49153 then SlotOf else if idx =? 57345 then ArOf else ApiOf.

Lemma row_get : forall na ns nt d a s, dev_ok na ns nt d -> row_at d a s = match get_api d a with None => None | Some x => option_map (row_of a) (get_slot x s) end.
Proof. intros na ns nt d a s D. apply row_at_get. exact (proj1 D). Qed.

Lemma real_body_answer : forall na ns nt d ar a s t idx, dev_ok na ns nt d -> (forall r, ar = Some r -> sizes na ns nt (r_exp r)) -> real_index idx ->
  match real_answer d ar a s t idx with
  | Some l => conf_ok l -> enc (real_body true d (scope_of idx) ar a s t) (econf true l)
  | None => forall w, real_body true d (scope_of idx) ar a s t w = Ok w
  end.
Proof.
  intros na ns nt d ar a s t idx D Z I. unfold real_answer, scope_of.
  assert (G1 : get_api d a = None -> existsb (Z.eqb a) (apis d) = false).
  { intros G. destruct (existsb (Z.eqb a) (apis d)) eqn:E; [|reflexivity]. apply existsb_in, in_apis in E. congruence. }
  assert (G2 : forall x, get_api d a = Some x -> existsb (Z.eqb a) (apis d) = true).
  { intros x G. apply existsb_in, in_apis. congruence. }
  assert (ONE : forall x y sub c, get_api d a = Some x -> conf_ok [(a, [c])] -> (cmod_ok c -> enc (put_slot_data true y sub None) (ecmod true c)) ->
    enc (put_u16 true 1 ;; put_api_data true x (Some y) sub None) (econf true [(a, [c])])).
  { intros x y sub c G K E. apply (enc_one _ true _ (ecapi true)). pose proof (conf_ok_in _ K _ (or_introl eq_refl)) as C.
    pose proof (num_get _ _ _ _ _ _ G) as NX. rewrite <- NX in *. apply enc_api_one; [exact C|]. apply E. apply C. left. reflexivity. }
  destruct I as [<-|[<-|[<-|[<-|[]]]]]; cbn [Z.eqb Pos.eqb]; unfold real_body.
  - rewrite (row_get na ns nt d a s D), (sub_in_cell na ns nt d a s t D). unfold cell, put_real_device_data. destruct (get_api d a) as [x|] eqn:G; [|reflexivity].
    destruct (get_slot x s) as [y|] eqn:Y; cbn [option_map]; [|reflexivity]. destruct (get_sub y t) as [z|] eqn:T; [|reflexivity]. intros K.
    pose proof (num_get _ _ _ _ _ _ Y) as NY. cbn [row_of w_ident] in *. rewrite <- NY in *. apply ONE; [reflexivity|exact K|apply enc_slot_one].
  - rewrite (row_get na ns nt d a s D). unfold put_real_device_data. destruct (get_api d a) as [x|] eqn:G; [|reflexivity].
    destruct (get_slot x s) as [y|] eqn:Y; cbn [option_map]; [|reflexivity]. intros K. apply ONE; [reflexivity|exact K|].
    unfold mod_of, row_of. cbn [w_slot w_ident w_subs]. apply enc_slot_all.
  - destruct ar as [r|]; [|reflexivity]. destruct (r_iosar r); [reflexivity|]. rewrite <- (found_is_plugged na ns nt d _ D).
    apply (enc_real_ar true na ns nt). apply Z. reflexivity.
  - unfold put_real_device_data. destruct (get_api d a) as [x|] eqn:G.
    + rewrite (G2 x eq_refl), (mods_in_get na ns nt d a x D G). intros K. pose proof (num_get _ _ _ _ _ _ G) as NX. rewrite <- NX in *.
      apply (enc_one _ true _ (ecapi true)). apply enc_api_all. apply (conf_ok_in _ K). left. reflexivity.
    + rewrite (G1 eq_refl). reflexivity.
Qed.

Lemma read_real : forall d ar a s t idx, real_index idx -> exists ar' a' s' t',
  read_ident d ar a s t idx = Some (put_real_ident_data true 1 d (scope_of idx) ar' a' s' t') /\
  real_body true d (scope_of idx) ar' a' s' t' = real_body true d (scope_of idx) ar a s t.
Proof.
  intros d ar a s t idx [<-|[<-|[<-|[<-|[]]]]]; unfold read_ident, scope_of; cbn [Z.eqb Pos.eqb idx_sub_exp idx_sub_real idx_slot_exp idx_slot_real idx_ar_exp idx_ar_real idx_api_real].
  - exists None, a, s, t. split; reflexivity.
  - exists None, a, s, 0. split; reflexivity.
  - exists ar, 0, 0, 0. split; reflexivity.
  - exists None, a, 0, 0. split; reflexivity.
Qed.


Lemma inside_slot_data : forall be nt y sub e, (forall m, e = Some m -> mod_sizes nt m) -> stays_inside (put_slot_data be y sub e).
Proof.
  intros be nt y sub e H. unfold put_slot_data. refine (inside_seq _ _ (inside_u16 _ _) _). refine (inside_seq _ _ (inside_u32 _ _) _).
  assert (IS : forall z, stays_inside (put_subslot_data be z)) by (intros z; refine (inside_seq _ _ (inside_u16 _ _) (inside_u32 _ _))).
  destruct e as [m|].
  - destruct (H m eq_refl) as (A & B & C). eapply inside_ext; [intros w; rewrite upto_ok by lia; cbn [obind]; reflexivity|].
    apply inside_counted. intros z g _ E. destruct (get_sub y (xs_num z)); [|discriminate]. injection E as <-. apply IS.
  - destruct sub as [z|]; [refine (inside_seq _ _ (inside_u16 _ _) (IS z))|]. apply inside_counted. intros z g _ E. destruct (rs_use z); [|discriminate]. injection E as <-. apply IS.
Qed.
Lemma inside_api_data : forall be ns nt x slot sub e, (forall xa, e = Some xa -> api_sizes ns nt xa) -> stays_inside (put_api_data be x slot sub e).
Proof.
  intros be ns nt x slot sub e H. unfold put_api_data. refine (inside_seq _ _ (inside_u32 _ _) _). destruct e as [xa|].
  - destruct (H xa eq_refl) as (A & B & C & F). eapply inside_ext; [intros w; rewrite upto_ok by lia; cbn [obind]; reflexivity|].
    apply inside_counted. intros m g I E. destruct (get_slot x (xm_num m)) as [y|]; [|discriminate]. injection E as <-. apply (inside_slot_data be nt).
    intros m' Q. injection Q as <-. apply F. rewrite <- (firstn_skipn (xa_n xa) (xa_mods xa)). apply in_or_app. left. exact I.
  - assert (IS : forall y sub, stays_inside (put_slot_data be y sub None)) by (intros y sub'; apply (inside_slot_data be nt); discriminate).
    destruct slot as [y|]; [refine (inside_seq _ _ (inside_u16 _ _) (IS y sub))|]. apply inside_counted. intros y g _ E. destruct (rl_use y); [|discriminate]. injection E as <-. apply IS.
Qed.
Lemma inside_real : forall be na ns nt d sc ar a s t, (forall r, ar = Some r -> sizes na ns nt (r_exp r)) -> stays_inside (real_body be d sc ar a s t).
Proof.
  intros be na ns nt d sc ar a s t H.
  assert (IA : forall x slot sub, stays_inside (put_api_data be x slot sub None)) by (intros; apply (inside_api_data be ns nt); discriminate).
  assert (IO : forall x slot sub, stays_inside (put_u16 be 1 ;; put_api_data be x slot sub None)) by (intros; refine (inside_seq _ _ (inside_u16 _ _) (IA _ _ _))).
  destruct sc; unfold real_body, put_real_device_data.
  - destruct (get_api d a) as [x|]; [|exact inside_skip]. destruct (get_slot x s) as [y|]; [|exact inside_skip]. destruct (get_sub y t) as [z|]; [apply IO|exact inside_skip].
  - destruct (get_api d a) as [x|]; [|exact inside_skip]. destruct (get_slot x s) as [y|]; [apply IO|exact inside_skip].
  - destruct (get_api d a) as [x|]; [apply IO|exact inside_skip].
  - destruct ar as [r|]; [|exact inside_skip]. destruct (r_iosar r); [exact inside_skip|]. destruct (H r eq_refl) as (A & B & C & F).
    eapply inside_ext; [intros w; rewrite upto_ok by lia; cbn [obind]; reflexivity|].
    apply inside_counted. intros xa g I E. destruct (get_api d (xa_num xa)) as [x|]; [|discriminate]. injection E as <-. apply (inside_api_data be ns nt).
    intros m' Q. injection Q as <-. apply F. rewrite <- (firstn_skipn (xi_n (r_exp r)) (xi_apis (r_exp r))). apply in_or_app. left. exact I.
  - apply inside_counted. intros x g _ E. destruct (ra_use x); [|discriminate]. injection E as <-. apply inside_u32.
Qed.

(** C116: a read of real identification data gives what is plugged in the part asked for;
    if there is nothing, nothing.  All histories of the device, all expectations, with and
    without a connection. *)
Theorem C116_real : forall na ns nt h ar a s t idx, (0 < na)%nat -> (forall r, ar = Some r -> sizes na ns nt (r_exp r)) -> real_index idx ->
  exists f, read_ident (run na ns nt h) ar a s t idx = Some f /\ stays_inside f /\
  match real_answer (run na ns nt h) ar a s t idx with
  | Some l => conf_ok l -> Z.of_nat (conf_size l) < 65534 ->
    round_trip true true f get_ident_block (mkBhead 19 (2 + Z.of_nat (conf_size l)) 1 1, l) (6 + conf_size l)
  | None => no_data f
  end.
Proof.
  intros na ns nt h ar a s t idx P Z I. pose proof (run_ok na ns nt h P) as D. revert D. generalize (run na ns nt h). clear h. intros d D.
  destruct (read_real d ar a s t idx I) as (ar' & a' & s' & t' & E & B). rewrite E. eexists. split; [reflexivity|].
  assert (W : forall w, put_real_ident_data true 1 d (scope_of idx) ar' a' s' t' w = put_block_if true 19 1 (real_body true d (scope_of idx) ar a s t) w).
  { intros w. rewrite real_as_block, B. destruct I as [<-|[<-|[<-|[<-|[]]]]]; reflexivity. }
  split; [apply (inside_ext _ _ W); apply inside_block_if; exact (inside_real true na ns nt d _ ar a s t Z)|].
  pose proof (real_body_answer na ns nt d ar a s t idx D Z I) as RB. destruct (real_answer d ar a s t idx) as [l|].
  - intros K L. specialize (RB K). pose proof (econf_length true l) as EL. rewrite <- EL in *.
    replace (6 + length (econf true l))%nat with (length (eblock_v true 19 1 (econf true l))) by (unfold eblock_v; rewrite !app_length, !e16_length; reflexivity).
    apply rt_of.
    + apply (enc_ext _ _ _ W). apply enc_block_if; [lia|unfold byte; lia|rewrite EL; unfold conf_size; lia|exact L|exact RB].
    + apply dec_block_v; [lia|exact L|]. apply dec_conf. exact K.
  - intros b len pos Q1 Q2 Q3. rewrite W. apply no_data_if; assumption.
Qed.
Print Assumptions C116_real.

(** C116: the list of APIs. *)
Theorem C116_apis : forall na ns nt h ar a s t, (0 < na)%nat ->
  exists f, read_ident (run na ns nt h) ar a s t 63521 (* 0xF821 *) = Some f /\ stays_inside f /\
  ((forall x, In x (apis (run na ns nt h)) -> 0 <= x < 4294967296) -> Z.of_nat (length (apis (run na ns nt h))) < 16383 ->
   round_trip true true f get_api_block (mkBhead 26 (4 + 4 * Z.of_nat (length (apis (run na ns nt h)))) 1 0, apis (run na ns nt h))
     (8 + 4 * length (apis (run na ns nt h)))).
Proof.
  intros na ns nt h ar a s t P. generalize (run na ns nt h). clear h. intros d. eexists. split; [reflexivity|].
  assert (W : forall w, put_real_ident_data true 0 d DeviceOf None 0 0 0 w = put_block_if true 26 0 (real_body true d DeviceOf None 0 0 0) w) by (intros w; apply real_as_block).
  split; [apply (inside_ext _ _ W); apply inside_block_if; apply (inside_real true na ns nt); discriminate|]. intros R L.
  set (bs := e16 true (Z.of_nat (length (apis d))) ++ flat_map (e32 true) (apis d)).
  assert (BL : length bs = (2 + 4 * length (apis d))%nat).
  { unfold bs. rewrite app_length, e16_length, (sum_map_flat _ (e32 true) (fun _ => 4%nat)) by (intros; apply e32_length). rewrite sum_const. reflexivity. }
  replace (8 + 4 * length (apis d))%nat with (length (eblock_v true 26 0 bs)) by (unfold eblock_v; rewrite !app_length, !e16_length; cbn [length]; lia).
  replace (4 + 4 * Z.of_nat (length (apis d))) with (2 + Z.of_nat (length bs)) by lia.
  apply rt_of.
  - apply (enc_ext _ _ _ W). apply enc_block_if; [lia|unfold byte; lia|lia|lia|]. unfold bs, real_body, put_real_device_data. unfold apis in *. rewrite filter_opt in *.
    apply enc_counted; [lia|]. intros x I. destruct (ra_use x) eqn:U; [|reflexivity]. eexists. split; [reflexivity|]. apply enc_u32. apply R.
    apply in_flat_map. exists x. rewrite U. split; [exact I|left; reflexivity].
  - apply dec_block_v; [lia|lia|]. apply dec_same; [lia|]. intros x I. apply dec_u32. exact (R x I).
Qed.
Print Assumptions C116_apis.

(** * Expected identification data *)

Lemma enc_exp_sub : forall be e, csub_ok (csub_of e) -> enc (put_exp_submodule_data be e) (ecsub be (csub_of e)).
Proof. intros be e (A & B). apply enc_seq; [apply enc_u16; exact A|apply enc_u32; exact B]. Qed.
Lemma enc_exp_mod : forall be nt m, mod_sizes nt m -> cmod_ok (cmod_of m) -> enc (put_exp_module_data be m None) (ecmod be (cmod_of m)).
Proof.
  intros be nt m (S1 & S2 & S3) (A & B & C & D). unfold put_exp_module_data, ecmod, cmod_of.
  assert (N : length (map csub_of (firstn (xm_n m) (xm_subs m))) = xm_n m) by (rewrite map_length, firstn_length; lia). rewrite N in *.
  apply enc_seq; [apply enc_u16; exact A|]. apply enc_seq; [apply enc_u32; exact B|]. apply enc_seq; [rewrite u16_id by lia; apply enc_u16; lia|].
  eapply enc_ext; [intros w; rewrite upto_ok by lia; cbn [obind]; reflexivity|]. apply enc_all. intros e I. apply enc_exp_sub. apply D. apply in_map. exact I.
Qed.
Lemma enc_exp_mod_one : forall be m e, cmod_ok (xm_num m, xm_ident m, [csub_of e]) -> enc (put_exp_module_data be m (Some e)) (ecmod be (xm_num m, xm_ident m, [csub_of e])).
Proof.
  intros be m e (A & B & C & D). unfold put_exp_module_data, ecmod. apply enc_seq; [apply enc_u16; exact A|]. apply enc_seq; [apply enc_u32; exact B|].
  apply (enc_one _ be _ (ecsub be)). apply enc_exp_sub. apply D. left. reflexivity.
Qed.
Lemma enc_exp_api : forall be ns nt x, api_sizes ns nt x -> capi_ok (capi_of x) -> enc (put_exp_api_data be x None None) (ecapi be (capi_of x)).
Proof.
  intros be ns nt x (S1 & S2 & S3 & S4) (A & B & C). unfold put_exp_api_data, ecapi, capi_of in *. cbn [fst snd] in *.
  assert (N : length (map cmod_of (firstn (xa_n x) (xa_mods x))) = xa_n x) by (rewrite map_length, firstn_length; lia). rewrite N in *.
  apply enc_seq; [apply enc_u32; exact A|]. apply enc_seq; [rewrite u16_id by lia; apply enc_u16; lia|].
  eapply enc_ext; [intros w; rewrite upto_ok by lia; cbn [obind]; reflexivity|]. apply enc_all. intros m I. apply (enc_exp_mod be nt).
  - apply S4. rewrite <- (firstn_skipn (xa_n x) (xa_mods x)). apply in_or_app. left. exact I.
  - apply C. apply in_map. exact I.
Qed.

(** What [put_exp_ident_data] does with a connection, as a block with a body. *)
Definition exp_body (be : bool) (i : xid) (sc : scope) (a s t : Z) : writer := fun w1 =>
  match sc with
  | ArOf => (put_u16 be (u16 (Z.of_nat (xi_n i))) ;;
      fun w => do l <- upto (xi_n i) (xi_apis i); put_all (fun x => put_exp_api_data be x None None) l w) w1
  | _ =>
    do x <- search xa_num a (xi_n i) (xi_apis i);
    do m <- match x with Some x => search xm_num s (xa_n x) (xa_mods x) | None => Ok None end;
    do e <- match sc, m with SubslotOf, Some m => search xs_num t (xm_n m) (xm_subs m) | _, _ => Ok None end;
    let found := match sc with
                 | SlotOf => match m with Some _ => true | None => false end
                 | SubslotOf => match e with Some _ => true | None => false end
                 | _ => false
                 end in
    if found then (put_u16 be 1 ;; match x with Some x => put_exp_api_data be x m e | None => fun _ => Ub end) w1
    else put_u16 be 0 w1
  end.
Lemma exp_as_block : forall be vl r sc a s t w, put_exp_ident_data be vl (Some r) sc a s t w = put_block_v be bt_expected_ident vl (exp_body be (r_exp r) sc a s t) w.
Proof. reflexivity. Qed.

Lemma search_ok : forall A B (num : A -> Z) (key : B -> Z) (f : A -> B) k n l, (forall x, key (f x) = num x) -> (n <= length l)%nat ->
  exists o, search num k n l = Ok o /\ find (fun x => key x =? k) (map f (firstn n l)) = option_map f o /\ forall x, o = Some x -> In x (firstn n l) /\ num x = k.
Proof.
  intros A B num key f k n l K L. unfold search. rewrite upto_ok by exact L. cbn [obind]. eexists. split; [reflexivity|]. split.
  - induction (firstn n l) as [|x r IH]; [reflexivity|]. cbn [map find]. rewrite K. destruct (num x =? k); [reflexivity|exact IH].
  - intros x E. apply find_some in E. destruct E as [E1 E2]. apply Z.eqb_eq in E2. auto.
Qed.

Definition exp_scope (idx : Z) : scope := if idx =? 32768 then SubslotOf else if idx =? 49152 then SlotOf else ArOf.
Lemma find_conf : forall na ns nt i a s, sizes na ns nt i -> exists x m,
  search xa_num a (xi_n i) (xi_apis i) = Ok x /\
  match x with Some x => search xm_num s (xa_n x) (xa_mods x) | None => Ok None end = Ok m /\
  find (fun c : capi => fst c =? a) (conf i) = option_map capi_of x /\
  (forall y, x = Some y -> xa_num y = a /\ api_sizes ns nt y /\ find (fun c : cmod => fst (fst c) =? s) (snd (capi_of y)) = option_map cmod_of m) /\
  (forall y, m = Some y -> xm_num y = s /\ mod_sizes nt y).
Proof.
  intros na ns nt i a s (S1 & S2 & S3 & S4).
  destruct (search_ok _ _ xa_num (fun c : capi => fst c) capi_of a (xi_n i) (xi_apis i)) as (x & E & F & G); [reflexivity|lia|]. exists x.
  destruct x as [y|].
  - destruct (G y eq_refl) as [I NY].
    assert (SY : api_sizes ns nt y) by (apply S4; rewrite <- (firstn_skipn (xi_n i) (xi_apis i)); apply in_or_app; left; exact I).
    destruct (search_ok _ _ xm_num (fun c : cmod => fst (fst c)) cmod_of s (xa_n y) (xa_mods y)) as (m & E2 & F2 & G2); [reflexivity|destruct SY; lia|]. exists m.
    split; [exact E|]. split; [exact E2|]. split; [exact F|]. split.
    + intros y' Q. injection Q as <-. split; [exact NY|]. split; [exact SY|exact F2].
    + intros z Q. destruct (G2 z Q) as [J NZ]. split; [exact NZ|]. apply SY. rewrite <- (firstn_skipn (xa_n y) (xa_mods y)). apply in_or_app. left. exact J.
  - exists None. split; [exact E|]. split; [reflexivity|]. split; [exact F|]. split; discriminate.
Qed.

Lemma exp_body_answer : forall na ns nt i a s t idx, sizes na ns nt i -> exp_index idx -> conf_ok (exp_answer (conf i) a s t idx) ->
  enc (exp_body true i (exp_scope idx) a s t) (econf true (exp_answer (conf i) a s t idx)).
Proof.
  intros na ns nt i a s t idx Z I K.
  assert (E0 : enc (put_u16 true 0) (econf true [])) by (unfold econf; cbn [flat_map length]; rewrite app_nil_r; apply enc_u16; lia).
  assert (ONE : forall x m e c, xa_num x = a -> conf_ok [(a, [c])] -> (cmod_ok c -> enc (put_exp_module_data true m e) (ecmod true c)) ->
    enc (put_u16 true 1 ;; put_exp_api_data true x (Some m) e) (econf true [(a, [c])])).
  { intros x m e c NX KC E. apply (enc_one _ true _ (ecapi true)). pose proof (conf_ok_in _ KC _ (or_introl eq_refl)) as (C1 & C2 & C3). cbn [fst snd] in *.
    unfold put_exp_api_data, ecapi. cbn [fst snd]. rewrite NX. apply enc_seq; [apply enc_u32; exact C1|]. apply (enc_one _ true _ (ecmod true)). apply E. apply C3. left. reflexivity. }
  destruct (find_conf na ns nt i a s Z) as (x & m & E1 & E2 & F1 & FX & FM).
  destruct I as [<-|[<-|[<-|[]]]]; unfold exp_answer, exp_scope in *; cbn [Z.eqb Pos.eqb] in *; unfold exp_body.
  - eapply enc_ext; [intros w; rewrite E1; cbn [obind]; rewrite E2; cbn [obind]; reflexivity|]. rewrite F1 in *. destruct x as [x|]; cbn [option_map] in *.
    + destruct (FX x eq_refl) as (NX & SX & F2). rewrite F2 in *. destruct m as [m|]; cbn [option_map cmod_of] in *.
      * destruct (FM m eq_refl) as (NM & (T1 & T2 & T3)).
        destruct (search_ok _ _ xs_num (fun c : csub => fst c) csub_of t (xm_n m) (xm_subs m)) as (e & E3 & F3 & G3); [reflexivity|lia|].
        eapply enc_ext; [intros w; rewrite E3; cbn [obind]; reflexivity|]. rewrite F3 in *. destruct e as [e|]; cbn [option_map] in *; [|exact E0].
        apply ONE; [exact NX|exact K|apply enc_exp_mod_one].
      * eapply enc_ext; [intros w; cbn [obind]; reflexivity|exact E0].
    + replace m with (@None xmod) by congruence. eapply enc_ext; [intros w; cbn [obind]; reflexivity|exact E0].
  - eapply enc_ext; [intros w; rewrite E1; cbn [obind]; rewrite E2; cbn [obind]; reflexivity|]. rewrite F1 in *. destruct x as [x|]; cbn [option_map] in *.
    + destruct (FX x eq_refl) as (NX & SX & F2). rewrite F2 in *. destruct m as [m|]; cbn [option_map cmod_of] in *; [|exact E0].
      destruct (FM m eq_refl) as (NM & SM). apply ONE; [exact NX|exact K|exact (enc_exp_mod true nt m SM)].
    + replace m with (@None xmod) by congruence. exact E0.
  - pose proof (conf_ok_in _ K) as C. destruct K as [KL _]. destruct Z as (S1 & S2 & S3 & S4). unfold econf.
    assert (N : length (conf i) = xi_n i) by (unfold conf; rewrite map_length, firstn_length; lia). rewrite N in *. apply enc_seq; [rewrite u16_id by lia; apply enc_u16; lia|].
    eapply enc_ext; [intros w; rewrite upto_ok by lia; cbn [obind]; reflexivity|]. apply enc_all. intros y J. apply (enc_exp_api true ns nt).
    + apply S4. rewrite <- (firstn_skipn (xi_n i) (xi_apis i)). apply in_or_app. left. exact J.
    + apply C. unfold conf. apply in_map. exact J.
Qed.

Lemma inside_exp_mod : forall be nt m sub, mod_sizes nt m -> stays_inside (put_exp_module_data be m sub).
Proof.
  intros be nt m sub (S1 & S2 & S3). assert (IS : forall e, stays_inside (put_exp_submodule_data be e)) by (intros e; refine (inside_seq _ _ (inside_u16 _ _) (inside_u32 _ _))).
  refine (inside_seq _ _ (inside_u16 _ _) _). refine (inside_seq _ _ (inside_u32 _ _) _). destruct sub as [e|]; [refine (inside_seq _ _ (inside_u16 _ _) (IS e))|].
  refine (inside_seq _ _ (inside_u16 _ _) _). eapply inside_ext; [intros w; rewrite upto_ok by lia; cbn [obind]; reflexivity|]. apply inside_all. intros; apply IS.
Qed.
Lemma inside_exp : forall be na ns nt i sc a s t, sizes na ns nt i -> stays_inside (exp_body be i sc a s t).
Proof.
  intros be na ns nt i sc a s t Z. destruct (find_conf na ns nt i a s Z) as (x & m & E1 & E2 & F1 & FX & FM).
  assert (I0 : stays_inside (put_u16 be 0)) by apply inside_u16.
  assert (IO : forall y z e, mod_sizes nt z -> stays_inside (put_u16 be 1 ;; put_exp_api_data be y (Some z) e)).
  { intros y z e M. refine (inside_seq _ _ (inside_u16 _ _) _). refine (inside_seq _ _ (inside_u32 _ _) _). refine (inside_seq _ _ (inside_u16 _ _) _). exact (inside_exp_mod be nt z e M). }
  assert (MX : forall z, m = Some z -> exists y, x = Some y) by (intros z Q; destruct x as [y|]; [exists y; reflexivity|congruence]).
  destruct sc; unfold exp_body; try (eapply inside_ext; [intros w; rewrite E1; cbn [obind]; rewrite E2; cbn [obind]; reflexivity|]); try exact I0.
  - destruct m as [m|]; [|eapply inside_ext; [intros w; cbn [obind]; reflexivity|exact I0]]. destruct (MX m eq_refl) as (y & ->). destruct (FM m eq_refl) as (NM & SM).
    destruct (search_ok _ _ xs_num (fun c : csub => fst c) csub_of t (xm_n m) (xm_subs m)) as (e & E3 & _); [reflexivity|destruct SM as (? & ? & ?); lia|].
    eapply inside_ext; [intros w; rewrite E3; cbn [obind]; reflexivity|]. destruct e as [e|]; [exact (IO y m (Some e) SM)|exact I0].
  - destruct m as [m|]; [|exact I0]. destruct (MX m eq_refl) as (y & ->). destruct (FM m eq_refl) as (NM & SM). exact (IO y m None SM).
  - destruct Z as (S1 & S2 & S3 & S4). refine (inside_seq _ _ (inside_u16 _ _) _). eapply inside_ext; [intros w; rewrite upto_ok by lia; cbn [obind]; reflexivity|].
    apply inside_all. intros y I. assert (SY : api_sizes ns nt y) by (apply S4; rewrite <- (firstn_skipn (xi_n i) (xi_apis i)); apply in_or_app; left; exact I).
    destruct SY as (T1 & T2 & T3 & T4). refine (inside_seq _ _ (inside_u32 _ _) _). refine (inside_seq _ _ (inside_u16 _ _) _).
    eapply inside_ext; [intros w; rewrite upto_ok by lia; cbn [obind]; reflexivity|]. apply inside_all. intros z J. apply (inside_exp_mod be nt). apply T4.
    rewrite <- (firstn_skipn (xa_n y) (xa_mods y)). apply in_or_app. left. exact J.
Qed.

(** C116: a read of expected identification data on a connection gives what its
    controller expects in the part asked for.  Missing: reads without a connection. *)
Theorem C116_expected_partial : forall na ns nt d r a s t idx, sizes na ns nt (r_exp r) -> exp_index idx ->
  exists f, read_ident d (Some r) a s t idx = Some f /\ stays_inside f /\
  let l := exp_answer (conf (r_exp r)) a s t idx in
  (conf_ok l -> Z.of_nat (conf_size l) < 65534 ->
   round_trip true true f get_ident_block (mkBhead 18 (2 + Z.of_nat (conf_size l)) 1 1, l) (6 + conf_size l)).
Proof.
  intros na ns nt d r a s t idx Z I.
  assert (W : exists f, read_ident d (Some r) a s t idx = Some f /\ forall w, f w = put_block_v true 18 1 (exp_body true (r_exp r) (exp_scope idx) a s t) w).
  { destruct I as [<-|[<-|[<-|[]]]]; eexists; (split; [reflexivity|]); intros w; rewrite exp_as_block; reflexivity. }
  destruct W as (f & E & W). exists f. split; [exact E|]. split; [apply (inside_ext _ _ W); apply inside_block_v; exact (inside_exp true na ns nt _ _ a s t Z)|].
  cbv zeta. intros K L. pose proof (exp_body_answer na ns nt _ a s t idx Z I K) as RB.
  revert K L RB. generalize (exp_answer (conf (r_exp r)) a s t idx). intros l K L RB. pose proof (econf_length true l) as EL. rewrite <- EL in *.
  replace (6 + length (econf true l))%nat with (length (eblock_v true 18 1 (econf true l))) by (unfold eblock_v; rewrite !app_length, !e16_length; reflexivity).
  apply rt_of.
  - apply (enc_ext _ _ _ W). apply enc_block_v; [lia|unfold byte; lia|exact L|exact RB].
  - apply dec_block_v; [lia|exact L|]. apply dec_conf. exact K.
Qed.
Print Assumptions C116_expected_partial.

(** C116: without a connection every read of expected identification data accesses memory
    that does not exist, whatever the device, the address and the buffer. *)
Theorem C116_no_connection_refuted : forall d a s t idx b len pos, exp_index idx -> 0 <= pos <= len -> len <= Z.of_nat (length b) -> len < 65534 ->
  exists f, read_ident d None a s t idx = Some f /\ f (mkWr (Some b) len pos) = Ub.
Proof.
  intros d a s t idx b len pos I P L N.
  destruct (inside_header true 18 1 b len pos P L N) as (b1 & p1 & E1 & _).
  destruct I as [<-|[<-|[<-|[]]]]; eexists; (split; [reflexivity|]); unfold put_exp_ident_data, bt_expected_ident; rewrite E1; reflexivity.
Qed.
Print Assumptions C116_no_connection_refuted.

(** A device and a connection: the answers are not trivial and within the limits. *)
Example C116_example :
  let d := run 1 2 5 ex_history in let r := mkRar false (expecting 1 2 5 ex_conf) in
  sizes 1 2 5 (r_exp r) /\
  (exists l, real_answer d (Some r) 0 1 3 57345 = Some l /\ l <> [] /\ conf_ok l /\ Z.of_nat (conf_size l) < 65534) /\
  (exists l, real_answer d None 0 1 3 61440 = Some l /\ conf_ok l /\ (14 < conf_size l)%nat) /\
  real_answer d None 7 1 3 61440 = None /\
  (exists l, exp_answer (conf (r_exp r)) 0 1 3 32768 = l /\ l <> [] /\ conf_ok l) /\
  exp_answer (conf (r_exp r)) 0 1 99 32768 = [] /\ apis d <> [].
Proof.
  cbv zeta. split; [exact (proj1 C113_example)|].
  assert (CO : forall l, (Z.of_nat (length l) <? 65536) && forallb (fun x : capi => (0 <=? fst x) && (fst x <? 4294967296) && (Z.of_nat (length (snd x)) <? 65536) &&
      forallb (fun m : cmod => (0 <=? fst (fst m)) && (fst (fst m) <? 65536) && (0 <=? snd (fst m)) && (snd (fst m) <? 4294967296) && (Z.of_nat (length (snd m)) <? 65536) &&
        forallb (fun e : csub => (0 <=? fst e) && (fst e <? 65536) && (0 <=? snd e) && (snd e <? 4294967296)) (snd m)) (snd x)) l = true -> conf_ok l).
  { intros l H. apply andb_prop in H. destruct H as [H1 H2]. split; [apply Z.ltb_lt; exact H1|]. intros x I. rewrite forallb_forall in H2. specialize (H2 x I).
    apply andb_prop in H2. destruct H2 as [H2 H3]. apply andb_prop in H2. destruct H2 as [H2 H4]. apply andb_prop in H2. destruct H2 as [H2 H5].
    split; [lia|]. split; [lia|]. intros s id e J. rewrite forallb_forall in H3. specialize (H3 _ J). cbn [fst snd] in H3.
    apply andb_prop in H3. destruct H3 as [H3 H6]. split; [lia|]. split; [lia|]. split; [lia|]. intros t k K. rewrite forallb_forall in H6. specialize (H6 _ K). cbn [fst snd] in H6. lia. }
  split; [eexists; split; [vm_compute; reflexivity|]; split; [discriminate|]; split; [apply CO; vm_compute; reflexivity|vm_compute; reflexivity]|].
  split; [eexists; split; [vm_compute; reflexivity|]; split; [apply CO; vm_compute; reflexivity|apply Nat.ltb_lt; vm_compute; reflexivity]|].
  split; [vm_compute; reflexivity|].
  split; [eexists; split; [vm_compute; reflexivity|]; split; [discriminate|apply CO; vm_compute; reflexivity]|].
  split; [vm_compute; reflexivity|]. vm_compute. discriminate.
Qed.
