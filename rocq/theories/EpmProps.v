(** The endpoint mapper (C119). *)
From Coq Require Import List ZArith Arith Bool Lia.
From Verif Require Import Base BlockModel BlockReadLemmas BlockWriteProps DiffBlockProps EpmModel.
Import ListNotations.
Local Open Scope Z_scope.

(** * Specification *)

(** The answer as a controller reads it: handle, number of entries, the entry with object
    UUID, annotation and the floors of the protocol tower (each with a left and a right
    part), and a code.  UUIDs are the 16 bytes as they are sent. *)
Definition floor : Type := list Z * list Z.
Record entry := mkEntry { n_object : list Z; n_ref : Z; n_annotation : list Z; n_sizes : Z * Z; n_floors : list floor }.
Record told := mkTold { o_attr : Z; o_handle : list Z; o_entries : Z; o_max : Z; o_offset : Z; o_entry : option entry; o_code : Z }.
Definition get_bytes (n : nat) : reader (list Z) := rlist get_byte n.
Definition get_floor : reader floor :=
  rdo n <- get_u16; rdo l <- get_bytes (Z.to_nat n); rdo m <- get_u16; rdo r <- get_bytes (Z.to_nat m); rret (l, r).
Definition get_entry : reader entry :=
  rdo o <- get_bytes 16; rdo f <- get_u32; rdo _ <- get_u32; rdo n <- get_u32; rdo a <- get_bytes (Z.to_nat n);
  rdo s1 <- get_u32; rdo s2 <- get_u32; rdo fl <- counted get_floor; rdo _ <- get_byte (* padding *); rret (mkEntry o f a (s1, s2) fl).
Definition get_told : reader told :=
  rdo h <- get_u32; rdo u <- get_bytes 16; rdo n <- get_u32; rdo m <- get_u32; rdo f <- get_u32; rdo c <- get_u32;
  if c =? 0 then rdo code <- get_u32; rret (mkTold h u n m f None code)
  else rdo e <- get_entry; rdo code <- get_u32; rret (mkTold h u n m f (Some e) code).

(** The endpoints of the device: the endpoint mapper on port 34964 and PROFINET IO on port
    49155.  Object and interface UUIDs in little-endian order; the object of PROFINET IO
    names the instance, the device id and the vendor id. *)
Inductive endpoint := Mapper | Io.
Definition object_of (g : ecfg) (e : endpoint) : list Z :=
  match e with
  | Mapper => repeat 0 16
  | Io => [0; 0; 160; 222; 151; 108; 209; 17; 130; 113; 0; 1; g_dev_hi g; g_dev_lo g; g_ven_hi g; g_ven_lo g]
  end.
Definition interface_of (e : endpoint) : list Z :=
  match e with
  | Mapper => [8; 131; 175; 225; 31; 93; 201; 17; 145; 164; 8; 0; 43; 20; 160; 250]
  | Io => [1; 0; 160; 222; 151; 108; 209; 17; 130; 113; 0; 160; 36; 66; 223; 125]
  end.
Definition ndr : list Z := [4; 93; 136; 138; 235; 28; 201; 17; 159; 232; 8; 0; 43; 16; 72; 96].
Definition floors_of (ip : Z) (e : endpoint) : list floor :=
  [(13 :: interface_of e ++ [match e with Mapper => 3 | Io => 1 end; 0], [0; 0]);
   (13 :: ndr ++ [2; 0], [0; 0]); ([10], [0; 0]);
   ([8], match e with Mapper => [136; 148] | Io => [192; 3] end);
   ([9], [ip / 16777216; ip / 65536 mod 256; ip / 256 mod 256; ip mod 256])].
(** The handle: the time in the first two bytes, the MAC address in the last ones. *)
Definition handle_of (g : ecfg) (now : Z) : list Z := [now mod 256; now / 256 mod 256; 0; 0; 0; 0; 0; 16; 128; 12] ++ g_mac g.

(** A decimal number, aligned to the right with blanks. *)
Definition value (l : list Z) : Z := fold_left (fun a d => 10 * a + (d - 48)) l 0.
Definition reads (l : list Z) (v : Z) : Prop :=
  exists k ds, l = repeat 32 k ++ ds /\ ds <> [] /\ Forall (fun d => 48 <= d <= 57) ds /\ value ds = v.
(** The annotation: name, order id, hardware revision, software revision, and a zero. *)
Definition annotated (g : ecfg) (l : list Z) : Prop := exists h r1 r2 r3 : list Z,
  l = (g_product g ++ repeat 32 (25 - length (g_product g))) ++ [32] ++ (g_order g ++ repeat 32 (20 - length (g_order g))) ++ [32] ++ h ++ [32] ++
      [g_prefix g] ++ r1 ++ r2 ++ r3 ++ [0] /\
  length h = 5%nat /\ length r1 = 3%nat /\ length r2 = 3%nat /\ length r3 = 3%nat /\
  reads h (g_hw g) /\ reads r1 (g_sw1 g) /\ reads r2 (g_sw2 g) /\ reads r3 (g_sw3 g).

Definition none_told : told := mkTold 0 (repeat 0 16) 0 1 0 None 382312662.
(** [x] tells the endpoint [e]. *)
Definition tells (g : ecfg) (now ip : Z) (e : endpoint) (x : told) : Prop := exists a,
  x = mkTold 0 (handle_of g now) 1 1 0 (Some (mkEntry (object_of g e) 3 a (75, 75) (floors_of ip e))) 0 /\ length a = 64%nat /\
  ((length (g_product g) <= 25)%nat -> (length (g_order g) <= 20)%nat -> annotated g a).

(** Which endpoint is asked for by the request [seq] of a session. *)
Definition wants (seq : Z) (q : lookup) : option endpoint :=
  if (0 <? l_max q) && (l_inquiry q =? 0) then (if seq =? 0 then Some Mapper else if seq =? 1 then Some Io else None) else None.
(** [f] writes, at any place with enough space, a text from which [x] is read. *)
Definition writes (f : writer) (n : nat) (x : told) : Prop :=
  forall b len pos, 0 <= pos -> pos + Z.of_nat n <= len -> len <= Z.of_nat (length b) -> len < 65536 ->
  exists b', f (mkWr (Some b) len pos) = Ok (mkWr (Some b') len (pos + Z.of_nat n)) /\ length b' = length b /\
  firstn (Z.to_nat pos) b' = firstn (Z.to_nat pos) b /\
  get_told (mkRd (Some b') (pos + Z.of_nat n) false POk pos) = Ok (x, mkRd (Some b') (pos + Z.of_nat n) false POk (pos + Z.of_nat n)).
Definition cfg_ok (g : ecfg) : Prop :=
  length (g_mac g) = 6%nat /\ 0 <= g_hw g < 65536 /\ 0 <= g_sw1 g < 256 /\ 0 <= g_sw2 g < 256 /\ 0 <= g_sw3 g < 256.

(** A session: requests with the time and the address of the device when they come. *)
Record asked := mkAsked { k_now : Z; k_ip : Z; k_req : rd }.
Fixpoint session (g : ecfg) (seq : Z) (l : list asked) : outcome (list writer * bool) :=
  match l with
  | [] => Ok ([], false)
  | x :: l =>
    do (f, s) <- lookup_ind false g (k_now x) (k_ip x) seq (k_req x);
    match s with
    | None => Ok ([f], true)
    | Some s => do (fs, k) <- session g s l; Ok (f :: fs, k)
    end
  end.

Definition asked_ok (x : asked) : Prop := 0 <= k_now x < 4294967296 /\ 0 <= k_ip x < 4294967296 /\ rok (k_req x).
(** The request ends the session. *)
Definition ends (seq : Z) (q : lookup) : bool := (0 <? l_max q) && (l_inquiry q =? 0) && (2 <=? seq).
(** [r] is at a complete request: type of inquiry, 68 bytes, number of entries. *)
Definition complete (r : rd) (i m : Z) : Prop := exists pre mid post len,
  r = mkRd (Some (pre ++ (e32 false i ++ mid ++ e32 false m) ++ post)) len false POk (Z.of_nat (length pre)) /\
  Forall byte pre /\ Forall byte mid /\ Forall byte post /\ length mid = 68%nat /\
  Z.of_nat (length pre + 76) <= len /\ len <= Z.of_nat (length pre + 76 + length post) /\ len < 65536.

(** * Decimal numbers *)

Lemma value_app : forall l d, value (l ++ [d]) = 10 * value l + (d - 48).
Proof. intros l d. unfold value. rewrite fold_left_app. reflexivity. Qed.
Lemma digits_read : forall n v, 0 <= v < 10 ^ Z.of_nat n -> (0 < n)%nat ->
  let d := digits n v in d <> [] /\ Forall (fun x => 48 <= x <= 57) d /\ value d = v /\ (1 <= length d)%nat.
Proof.
  induction n as [|n IH]; intros v V N; [lia|]. cbv zeta. cbn [digits]. destruct (Z.ltb_spec v 10) as [L|L].
  - split; [discriminate|]. split; [constructor; [lia|constructor]|]. split; [unfold value; cbn [fold_left]; lia|cbn [length]; lia].
  - rewrite Nat2Z.inj_succ, Z.pow_succ_r in V by lia. destruct n as [|n]; [cbn in V; lia|].
    pose proof (Z.div_mod v 10 ltac:(lia)) as DM. pose proof (Z.mod_pos_bound v 10 ltac:(lia)) as MB.
    assert (Q : 0 <= v / 10 < 10 ^ Z.of_nat (S n)) by (split; [apply Z.div_pos; lia|apply Z.div_lt_upper_bound; lia]).
    destruct (IH (v / 10) Q ltac:(lia)) as (A & B & C & D). split; [intros E; apply app_eq_nil in E; destruct E; discriminate|].
    split; [apply Forall_app; split; [exact B|constructor; [lia|constructor]]|]. split; [rewrite value_app, C; lia|rewrite app_length; cbn [length]; lia].
Qed.
Lemma digits_length : forall n v k, 0 <= v < 10 ^ Z.of_nat k -> (0 < k)%nat -> (length (digits n v) <= k)%nat.
Proof.
  induction n as [|n IH]; intros v k V K; cbn [digits]; [cbn [length]; lia|]. destruct (Z.ltb_spec v 10); [cbn [length]; lia|].
  destruct k as [|k]; [lia|]. rewrite Nat2Z.inj_succ, Z.pow_succ_r in V by lia. destruct k as [|k]; [cbn in V; lia|].
  rewrite app_length. cbn [length]. specialize (IH (v / 10) (S k)). assert (Q : 0 <= v / 10 < 10 ^ Z.of_nat (S k)) by (split; [apply Z.div_pos; lia|apply Z.div_lt_upper_bound; lia]).
  specialize (IH Q ltac:(lia)). lia.
Qed.
Lemma fmt_reads : forall n v, (0 < n <= 10)%nat -> 0 <= v < 10 ^ Z.of_nat n -> length (fmt_u n v) = n /\ reads (fmt_u n v) v.
Proof.
  intros n v N V. unfold fmt_u. cbv zeta. pose proof (digits_length 10 v n V ltac:(lia)) as L. split; [rewrite app_length, repeat_length; lia|].
  assert (V10 : 0 <= v < 10 ^ Z.of_nat 10) by (split; [lia|]; eapply Z.lt_le_trans; [apply V|]; apply Z.pow_le_mono_r; lia).
  destruct (digits_read 10 v V10 ltac:(lia)) as (A & B & C & _). exists (n - length (digits 10 v))%nat, (digits 10 v). auto.
Qed.
Lemma annotation_length : forall g, cfg_ok g -> length (annotation g) = 64%nat /\
  ((length (g_product g) <= 25)%nat -> (length (g_order g) <= 20)%nat -> annotated g (annotation g)).
Proof.
  intros g (_ & H & S1 & S2 & S3). destruct (fmt_reads 5 (g_hw g) ltac:(lia) ltac:(cbn; lia)) as (L5 & R5).
  destruct (fmt_reads 3 (g_sw1 g) ltac:(lia) ltac:(cbn; lia)) as (L1 & R1). destruct (fmt_reads 3 (g_sw2 g) ltac:(lia) ltac:(cbn; lia)) as (L2 & R2).
  destruct (fmt_reads 3 (g_sw3 g) ltac:(lia) ltac:(cbn; lia)) as (L3 & R3). unfold annotation. split.
  - rewrite app_length, firstn_length. unfold annotation_text, fmt_s. rewrite !app_length, !repeat_length, L5, L1, L2, L3. cbn [length]. lia.
  - intros P O. exists (fmt_u 5 (g_hw g)), (fmt_u 3 (g_sw1 g)), (fmt_u 3 (g_sw2 g)), (fmt_u 3 (g_sw3 g)). repeat (split; [|tauto || assumption]); auto.
    rewrite firstn_all2.
    + unfold annotation_text, fmt_s. rewrite <- !app_assoc. reflexivity.
    + unfold annotation_text, fmt_s. rewrite !app_length, !repeat_length, L5, L1, L2, L3. cbn [length]. lia.
Qed.

(** * The answer *)

Lemma enc_aligned : forall f g bs cs, enc f bs -> enc g cs ->
  enc (fun w => do w1 <- f w; match put_padding_align 1 (w_pos w) 2 w1 with None => AssertFail | Some o => do w2 <- o; g w2 end)
    (bs ++ (if Nat.even (length bs) then [] else [0]) ++ cs).
Proof.
  intros f g bs cs F G b len pos P L M N. assert (PD : (length (if Nat.even (length bs) then [] else [0]) <= 1)%nat) by (destruct (Nat.even (length bs)); cbn [length]; lia).
  rewrite !app_length in L. rewrite F by lia. cbn [obind w_pos]. cbn [put_padding_align w_pos].
  replace (pos + Z.of_nat (length bs) - pos) with (Z.of_nat (length bs)) by lia. rewrite Z.rem_mod_nonneg by lia.
  assert (EV : (Z.of_nat (length bs) mod 2 =? 0) = Nat.even (length bs)).
  { rewrite Zmod_even. destruct (Nat.even (length bs)) eqn:E.
    - apply Nat.even_spec in E. destruct E as (k & ->). replace (Z.of_nat (2 * k)) with (2 * Z.of_nat k) by lia. rewrite Z.even_mul. reflexivity.
    - assert (O : Nat.odd (length bs) = true) by (rewrite <- Nat.negb_even, E; reflexivity). apply Nat.odd_spec in O. destruct O as (k & ->).
      replace (Z.of_nat (2 * k + 1)) with (2 * Z.of_nat k + 1) by lia. rewrite Z.even_add, Z.even_mul. reflexivity. }
  rewrite EV. destruct (Nat.even (length bs)) eqn:E.
  - cbn [obind]. rewrite G; [|lia|cbn [length] in L; lia|rewrite put_at_length; lia|exact N]. cbn [app]. rewrite app_length.
    replace (Z.to_nat (pos + Z.of_nat (length bs))) with (Z.to_nat pos + length bs)%nat by lia. rewrite put_at_app by lia. f_equal. f_equal. lia.
  - cbn [length] in L. assert (E0 : enc (put_byte 0) [0]) by (apply enc_byte; unfold byte; lia). rewrite E0; [|lia|cbn [length]; lia|rewrite put_at_length; lia|exact N].
    cbn [obind w_pos length]. replace (Z.rem _ 2 =? 0) with true.
    2: { symmetry. apply Z.eqb_eq. rewrite Z.rem_mod_nonneg by lia. replace (pos + Z.of_nat (length bs) + Z.of_nat 1 - pos) with (Z.of_nat (length bs) + 1) by lia.
         rewrite Zmod_even, Z.even_add. rewrite Zmod_even in EV. destruct (Z.even (Z.of_nat (length bs))); [discriminate|reflexivity]. }
    cbn [obind]. replace (Z.to_nat (pos + Z.of_nat (length bs))) with (Z.to_nat pos + length bs)%nat by lia. rewrite put_at_app by (cbn [length]; lia).
    replace (pos + Z.of_nat (length bs) + Z.of_nat 1) with (pos + Z.of_nat (length (bs ++ [0]))) by (rewrite app_length; cbn [length]; lia).
    assert (LB : length (bs ++ [0]) = S (length bs)) by (rewrite app_length; cbn [length]; lia).
    rewrite G; [|lia|lia|rewrite put_at_length; lia|exact N].
    replace (Z.to_nat (pos + Z.of_nat (length (bs ++ [0])))) with (Z.to_nat pos + length (bs ++ [0%Z]))%nat by lia.
    rewrite put_at_app by lia. rewrite <- app_assoc. rewrite !app_length. cbn [length]. f_equal. f_equal. lia.
Qed.

Definition eruuid (u : ruuid) : list Z := e32 false (v_low u) ++ e16 false (v_mid u) ++ e16 false (v_hi u) ++ [v_clock u] ++ [v_clock_low u] ++ v_node u.
Definition ruuid_ok (u : ruuid) : Prop := 0 <= v_low u < 4294967296 /\ 0 <= v_mid u < 65536 /\ 0 <= v_hi u < 65536 /\ byte (v_clock u) /\ byte (v_clock_low u).
Lemma enc_ruuid : forall u, ruuid_ok u -> enc (put_ruuid false u) (eruuid u).
Proof.
  intros u (A & B & C & D & E). unfold put_ruuid, eruuid.
  apply enc_seq; [apply enc_u32; exact A|]. apply enc_seq; [apply enc_u16; exact B|]. apply enc_seq; [apply enc_u16; exact C|].
  apply enc_seq; [apply enc_byte; exact D|]. apply enc_seq; [apply enc_byte; exact E|apply enc_mem].
Qed.
Lemma dec_raw : forall be l, dec be be (get_bytes (length l)) l l.
Proof.
  intros be l. pose proof (dec_list Z Z be get_byte (fun x => [x]) (fun x => x) l (fun x _ => dec_byte be x)) as H.
  rewrite map_id in H. replace (flat_map (fun x : Z => [x]) l) with l in H; [exact H|]. clear H. induction l as [|x l IH]; [reflexivity|]. cbn [flat_map app]. rewrite <- IH. reflexivity.
Qed.
Definition efloor (x : floor) : list Z := e16 false (Z.of_nat (length (fst x))) ++ fst x ++ e16 false (Z.of_nat (length (snd x))) ++ snd x.
Lemma dec_floor : forall x, Z.of_nat (length (fst x)) < 65536 -> Z.of_nat (length (snd x)) < 65536 -> dec false false get_floor (efloor x) x.
Proof.
  intros [l r] A B. cbn [fst snd] in *. unfold get_floor, efloor. cbn [fst snd]. eapply dec_bind; [apply dec_u16; lia|]. rewrite Nat2Z.id.
  eapply dec_bind; [apply dec_raw|]. eapply dec_bind; [apply dec_u16; lia|]. rewrite Nat2Z.id. eapply dec_last; [apply dec_raw|reflexivity].
Qed.

Lemma handle_bytes : forall now mac, 0 <= now -> ruuid_ok (epm_handle now mac) /\ eruuid (epm_handle now mac) = [now mod 256; now / 256 mod 256; 0; 0; 0; 0; 0; 16; 128; 12] ++ mac.
Proof.
  intros now mac N. unfold epm_handle.
  assert (L : Z.land now 65535 = now mod 65536) by (change 65535 with (Z.ones 16); rewrite Z.land_ones by lia; reflexivity).
  assert (U : forall x, u16 x = Z.land x 65535) by (intros x; change 65535 with (Z.ones 16); rewrite Z.land_ones by lia; reflexivity).
  assert (M : u16 (Z.land now 16711680) = 0) by (rewrite U, <- Z.land_assoc; change (Z.land 16711680 65535) with 0; apply Z.land_0_r).
  assert (H : u16 (Z.lor (Z.land now 4278190080) 4096) = 4096).
  { rewrite U, Z.land_lor_distr_l, <- Z.land_assoc. change (Z.land 4278190080 65535) with 0. rewrite Z.land_0_r. reflexivity. }
  rewrite L, M, H. pose proof (Z.mod_pos_bound now 65536 ltac:(lia)) as B. split; [unfold ruuid_ok, byte; cbn; lia|].
  unfold eruuid. cbn [v_low v_mid v_hi v_clock v_clock_low v_node]. unfold e32, e16.
  replace (now mod 65536 mod 65536 mod 256) with (now mod 256) by (rewrite Z.mod_mod by lia; rewrite <- Znumtheory.Zmod_div_mod; [reflexivity|lia|lia|exists 256; reflexivity]).
  replace (now mod 65536 mod 65536 / 256) with (now / 256 mod 256).
  2: { rewrite Z.mod_mod by lia. Z.div_mod_to_equations. lia. }
  replace (now mod 65536 / 65536) with 0 by (symmetry; apply Z.div_small; lia). reflexivity.
Qed.
Lemma ip_bytes : forall ip, 0 <= ip < 4294967296 -> 0 <= hton32 false ip < 4294967296 /\
  e32 false (hton32 false ip) = [ip / 16777216; ip / 65536 mod 256; ip / 256 mod 256; ip mod 256].
Proof.
  intros ip R. unfold hton32, swap16. assert (D : 0 <= ip / 65536 < 65536) by (split; [apply Z.div_pos; lia|apply Z.div_lt_upper_bound; lia]).
  set (h := ip / 65536) in *. pose proof (Z.mod_pos_bound ip 65536 ltac:(lia)) as B. set (l := ip mod 65536) in *.
  assert (E : ip = 65536 * h + l) by (apply Z.div_mod; lia).
  assert (H1 : 0 <= h / 256 < 256) by (split; [apply Z.div_pos; lia|apply Z.div_lt_upper_bound; lia]). pose proof (Z.mod_pos_bound h 256 ltac:(lia)) as H2.
  assert (L1 : 0 <= l / 256 < 256) by (split; [apply Z.div_pos; lia|apply Z.div_lt_upper_bound; lia]). pose proof (Z.mod_pos_bound l 256 ltac:(lia)) as L2.
  assert (EH : h = 256 * (h / 256) + h mod 256) by (apply Z.div_mod; lia). assert (EL : l = 256 * (l / 256) + l mod 256) by (apply Z.div_mod; lia).
  generalize dependent (h / 256). intros hh. generalize dependent (h mod 256). intros hl. generalize dependent (l / 256). intros lh. generalize dependent (l mod 256). intros ll. intros.
  split; [lia|]. unfold e32, e16.
  replace (((ll * 256 + lh) * 65536 + (hl * 256 + hh)) mod 65536) with (hl * 256 + hh) by (symmetry; Z.div_mod_to_equations; lia).
  replace (((ll * 256 + lh) * 65536 + (hl * 256 + hh)) / 65536) with (ll * 256 + lh) by (symmetry; Z.div_mod_to_equations; lia).
  assert (A1 : (hl * 256 + hh) mod 256 = hh /\ (hl * 256 + hh) / 256 = hl /\ (ll * 256 + lh) mod 256 = lh /\ (ll * 256 + lh) / 256 = ll) by (repeat split; Z.div_mod_to_equations; lia).
  destruct A1 as (-> & -> & -> & ->).
  assert (A2 : ip / 16777216 = hh /\ ip mod 256 = ll /\ ip / 256 mod 256 = lh) by (subst h l; rewrite E; repeat split; Z.div_mod_to_equations; lia).
  destruct A2 as (-> & -> & ->). reflexivity.
Qed.

Lemma enc_is : forall f x y, enc f x -> x = y -> enc f y.
Proof. intros f x y E <-. exact E. Qed.
Lemma enc_floor_uuid : forall u m, ruuid_ok u -> 0 <= m < 65536 ->
  enc (put_floor_uuid false u m) (e16 false 19 ++ [13] ++ eruuid u ++ e16 false m ++ e16 false 2 ++ e16 false 0).
Proof.
  intros u m U M. unfold put_floor_uuid. apply enc_seq; [apply enc_u16; lia|]. apply enc_seq; [apply enc_byte; unfold byte; lia|].
  apply enc_seq; [apply enc_ruuid; exact U|]. apply enc_seq; [apply enc_u16; lia|]. apply enc_seq; apply enc_u16; lia.
Qed.
Definition tower_of (ip : Z) (e : endpoint) : tower := match e with Mapper => init_tower false true 34964 ip | Io => init_tower false false 49155 ip end.
Definition etower (g : ecfg) (ip : Z) (e : endpoint) : list Z :=
  e32 false 3 ++ e32 false 0 ++ e32 false 64 ++ annotation g ++ e32 false 75 ++ e32 false 75 ++ e16 false 5 ++ flat_map efloor (floors_of ip e).
Lemma enc_tower : forall g ip e, 0 <= ip < 4294967296 -> enc (put_tower false g (tower_of ip e)) (etower g ip e).
Proof.
  intros g ip e I. destruct (ip_bytes ip I) as (IR & IB). unfold put_tower, etower.
  repeat (apply enc_seq; [first [apply enc_u32; lia|apply enc_u16; lia|apply enc_mem]|]). unfold floors_of. cbn [flat_map]. rewrite app_nil_r.
  apply enc_seq.
  { destruct e; (eapply enc_is; [apply enc_floor_uuid; [unfold ruuid_ok, byte; cbn; lia|cbn; lia]|reflexivity]). }
  apply enc_seq; [eapply enc_is; [apply enc_floor_uuid; [unfold ruuid_ok, byte; cbn; lia|cbn; lia]|reflexivity]|].
  apply enc_seq.
  { eapply enc_is; [unfold put_floor_rpc; apply enc_seq; [apply enc_u16; lia|]; apply enc_seq; [apply enc_byte; unfold byte; lia|]; apply enc_seq; apply enc_u16; lia|reflexivity]. }
  apply enc_seq.
  { destruct e; (eapply enc_is; [unfold put_floor_udp; apply enc_seq; [apply enc_u16; lia|]; apply enc_seq; [apply enc_byte; unfold byte; lia|]; apply enc_seq; apply enc_u16; cbn; lia|reflexivity]). }
  assert (W : w_ip (tower_of ip e) = hton32 false ip) by (destruct e; reflexivity). rewrite W.
  eapply enc_is; [unfold put_floor_ip; apply enc_seq; [apply enc_u16; lia|]; apply enc_seq; [apply enc_byte; unfold byte; lia|]; apply enc_seq; [apply enc_u16; lia|apply enc_u32; exact IR]|].
  rewrite IB. reflexivity.
Qed.

Definition eanswer (g : ecfg) (now ip : Z) (e : endpoint) : list Z :=
  (e32 false 0 ++ handle_of g now) ++ e32 false 1 ++ e32 false 1 ++ e32 false 0 ++ e32 false 1 ++ object_of g e ++ etower g ip e.
Definition endpoint_reply (g : ecfg) (now ip : Z) (e : endpoint) : reply := match e with Mapper => epm_reply false g now ip | Io => pnio_reply false g now ip end.
Lemma floors_length : forall ip e, length (flat_map efloor (floors_of ip e)) = 73%nat.
Proof. intros ip []; reflexivity. Qed.
Lemma eanswer_length : forall g now ip e, cfg_ok g -> length (eanswer g now ip e) = 211%nat.
Proof.
  intros g now ip e G. pose proof (proj1 (annotation_length g G)) as A. destruct G as (M & _). unfold eanswer, etower, handle_of. rewrite !app_length, floors_length, A, M, !e32_length, !e16_length.
  destruct e; reflexivity.
Qed.
Lemma enc_told : forall g now ip e, cfg_ok g -> 0 <= now < 4294967296 -> 0 <= ip < 4294967296 ->
  enc (put_reply false g (endpoint_reply g now ip e)) (eanswer g now ip e ++ [0] ++ e32 false 0).
Proof.
  intros g now ip e G N I. destruct (handle_bytes now (g_mac g) ltac:(lia)) as (HO & HB).
  pose proof (enc_aligned (put_handle false (y_handle (endpoint_reply g now ip e)) ;; put_u32 false (y_entries (endpoint_reply g now ip e)) ;; put_entry false g (endpoint_reply g now ip e))
    (put_u32 false (y_code (endpoint_reply g now ip e))) (eanswer g now ip e) (e32 false 0)) as E.
  rewrite (eanswer_length g now ip e G) in E. cbn [Nat.even] in E. apply E; clear E.
  - unfold eanswer. apply enc_seq.
    { unfold put_handle. apply enc_seq; [apply enc_u32; lia|]. replace (y_handle (endpoint_reply g now ip e)) with (epm_handle now (g_mac g)) by (destruct e; reflexivity).
      unfold handle_of. rewrite <- HB. apply enc_ruuid. exact HO. }
    apply enc_seq; [destruct e; apply enc_u32; lia|]. unfold put_entry. apply enc_seq; [destruct e; apply enc_u32; cbn; lia|]. apply enc_seq; [apply enc_u32; lia|].
    destruct e; cbn [endpoint_reply epm_reply pnio_reply y_entry].
    + apply enc_seq; [apply enc_u32; lia|]. apply enc_seq; [eapply enc_is; [apply enc_ruuid; unfold ruuid_ok, byte; cbn; lia|reflexivity]|]. apply (enc_tower g ip Mapper I).
    + apply enc_seq; [apply enc_u32; lia|]. apply enc_seq; [eapply enc_is; [apply enc_ruuid; unfold ruuid_ok, byte; cbn; lia|reflexivity]|]. apply (enc_tower g ip Io I).
  - destruct e; apply enc_u32; cbn; lia.
Qed.
Lemma enc_none : forall g, enc (put_reply false g no_reply) ((e32 false 0 ++ repeat 0 16) ++ e32 false 0 ++ e32 false 1 ++ e32 false 0 ++ e32 false 0 ++ e32 false 382312662).
Proof.
  intros g. pose proof (enc_aligned (put_handle false (y_handle no_reply) ;; put_u32 false (y_entries no_reply) ;; put_entry false g no_reply) (put_u32 false (y_code no_reply))
    ((e32 false 0 ++ repeat 0 16) ++ e32 false 0 ++ e32 false 1 ++ e32 false 0 ++ e32 false 0) (e32 false 382312662)) as E.
  eapply enc_is; [apply E; clear E|rewrite <- !app_assoc; reflexivity].
  - apply enc_seq; [unfold put_handle; apply enc_seq; [apply enc_u32; lia|eapply enc_is; [apply enc_ruuid; unfold ruuid_ok, byte; cbn; lia|reflexivity]]|].
    apply enc_seq; [apply enc_u32; cbn; lia|]. unfold put_entry. cbn [y_entry no_reply]. apply enc_seq; [apply enc_u32; cbn; lia|]. apply enc_seq; apply enc_u32; lia.
  - apply enc_u32. cbn. lia.
Qed.

Lemma dec_told : forall g now ip e, cfg_ok g -> 0 <= now < 4294967296 ->
  dec false false get_told (eanswer g now ip e ++ [0] ++ e32 false 0)
    (mkTold 0 (handle_of g now) 1 1 0 (Some (mkEntry (object_of g e) 3 (annotation g) (75, 75) (floors_of ip e))) 0).
Proof.
  intros g now ip e G N. pose proof (proj1 (annotation_length g G)) as A. destruct G as (M & _). unfold eanswer, get_told. rewrite <- !app_assoc.
  eapply dec_bind; [apply dec_u32; lia|].
  assert (LH : length (handle_of g now) = 16%nat) by (unfold handle_of; rewrite app_length, M; reflexivity).
  pose proof (dec_raw false (handle_of g now)) as DH. rewrite LH in DH. eapply dec_bind; [exact DH|].
  do 4 (eapply dec_bind; [apply dec_u32; lia|]). cbn [Z.eqb].
  match goal with |- dec _ _ _ ?l _ => replace l with ((object_of g e ++ etower g ip e ++ [0]) ++ e32 false 0) by (rewrite <- !app_assoc; reflexivity) end.
  eapply dec_bind; [|eapply dec_last; [apply dec_u32; lia|reflexivity]].
  unfold get_entry. pose proof (dec_raw false (object_of g e)) as DO. replace (length (object_of g e)) with 16%nat in DO by (destruct e; reflexivity). eapply dec_bind; [exact DO|].
  unfold etower. rewrite <- !app_assoc. do 3 (eapply dec_bind; [apply dec_u32; lia|]).
  pose proof (dec_raw false (annotation g)) as DA. rewrite A in DA. eapply dec_bind; [exact DA|]. do 2 (eapply dec_bind; [apply dec_u32; lia|]).
  rewrite app_assoc. eapply (dec_bind _ _ false false false); [|eapply dec_last; [apply dec_byte|reflexivity]].
  unfold counted. eapply dec_bind; [apply dec_u16; lia|]. change (Z.to_nat 5) with (length (floors_of ip e)).
  pose proof (dec_list floor floor false get_floor efloor (fun x => x) (floors_of ip e)) as D. rewrite map_id in D. apply D.
  intros x X. apply dec_floor; destruct e; cbn in X; repeat (destruct X as [<-|X]; [cbn; lia|]); destruct X.
Qed.
Lemma dec_none : dec false false get_told ((e32 false 0 ++ repeat 0 16) ++ e32 false 0 ++ e32 false 1 ++ e32 false 0 ++ e32 false 0 ++ e32 false 382312662) none_told.
Proof.
  unfold get_told. rewrite <- app_assoc. eapply dec_bind; [apply dec_u32; lia|]. pose proof (dec_raw false (repeat 0 16)) as DH. rewrite repeat_length in DH. eapply dec_bind; [exact DH|].
  do 4 (eapply dec_bind; [apply dec_u32; lia|]). cbn [Z.eqb]. eapply dec_last; [apply dec_u32; lia|reflexivity].
Qed.
Lemma writes_of : forall f x bs, enc f bs -> dec false false get_told bs x -> writes f (length bs) x.
Proof.
  intros f x bs E D b len pos P L M N. exists (put_at b (Z.to_nat pos) bs). split; [apply E; assumption|]. split; [apply put_at_length; lia|].
  assert (PL : length (firstn (Z.to_nat pos) b) = Z.to_nat pos) by (rewrite firstn_length; lia).
  split; [unfold put_at; rewrite firstn_app, PL, Nat.sub_diag; cbn [firstn]; rewrite app_nil_r, firstn_firstn, Nat.min_id; reflexivity|].
  unfold put_at. pose proof (D (firstn (Z.to_nat pos) b) (skipn (Z.to_nat pos + length bs) b) (pos + Z.of_nat (length bs))) as H. rewrite PL in H.
  replace (Z.of_nat (Z.to_nat pos + length bs)) with (pos + Z.of_nat (length bs)) in H by lia. replace (Z.of_nat (Z.to_nat pos)) with pos in H by lia. apply H; [lia| |lia].
  rewrite !app_length, PL. lia.
Qed.

(** * Requests *)

Lemma lookup_safe : forall st, safe st get_lookup (fun _ => True).
Proof.
  intros st. unfold get_lookup. repeat sstep. eapply safe_bind; [apply safe_mem_into; [lia|reflexivity]|intros w W]. repeat sstep.
Qed.
Definition skips {A} (m : reader A) (n : nat) : Prop := forall bs, length bs = n -> Forall byte bs -> exists v, dec false false m bs v.
Lemma le32 : forall bs, length bs = 4%nat -> Forall byte bs -> exists v, 0 <= v < 4294967296 /\ bs = e32 false v.
Proof.
  intros [|a [|b [|c [|d [|? ?]]]]] L F; try discriminate. inversion F as [|? ? A F1]; subst. inversion F1 as [|? ? B F2]; subst. inversion F2 as [|? ? C F3]; subst. inversion F3 as [|? ? D _]; subst.
  unfold byte in *. exists ((d * 256 + c) * 65536 + (b * 256 + a)). split; [lia|]. unfold e32, e16.
  replace (((d * 256 + c) * 65536 + (b * 256 + a)) mod 65536) with (b * 256 + a) by (Z.div_mod_to_equations; lia).
  replace (((d * 256 + c) * 65536 + (b * 256 + a)) / 65536) with (d * 256 + c) by (Z.div_mod_to_equations; lia).
  assert (A1 : (b * 256 + a) mod 256 = a /\ (b * 256 + a) / 256 = b /\ (d * 256 + c) mod 256 = c /\ (d * 256 + c) / 256 = d) by (repeat split; Z.div_mod_to_equations; lia).
  destruct A1 as (-> & -> & -> & ->). reflexivity.
Qed.
Lemma le16 : forall bs, length bs = 2%nat -> Forall byte bs -> exists v, 0 <= v < 65536 /\ bs = e16 false v.
Proof.
  intros [|a [|b [|? ?]]] L F; try discriminate. inversion F as [|? ? A F1]; subst. inversion F1 as [|? ? B _]; subst. unfold byte in *. exists (b * 256 + a). split; [lia|]. unfold e16.
  assert (A1 : (b * 256 + a) mod 256 = a /\ (b * 256 + a) / 256 = b) by (split; Z.div_mod_to_equations; lia). destruct A1 as (-> & ->). reflexivity.
Qed.
Lemma skips_u32 : skips get_u32 4.
Proof. intros bs L F. destruct (le32 bs L F) as (v & V & ->). exists v. apply dec_u32. exact V. Qed.
Lemma skips_u16 : skips get_u16 2.
Proof. intros bs L F. destruct (le16 bs L F) as (v & V & ->). exists v. apply dec_u16. exact V. Qed.
Lemma skips_byte : skips get_byte 1.
Proof. intros [|a [|? ?]] L F; try discriminate. exists a. apply dec_byte. Qed.
Lemma skips_bind : forall A B (m : reader A) (k : A -> reader B) n n', skips m n -> (forall a, skips (k a) n') -> skips (rbind m k) (n + n').
Proof.
  intros A B m k n n' M K bs L F. destruct (M (firstn n bs)) as (v & D); [rewrite firstn_length; lia|apply Forall_forall; intros x X; rewrite Forall_forall in F; apply F; rewrite <- (firstn_skipn n bs); apply in_or_app; left; exact X|].
  destruct (K v (skipn n bs)) as (w & E); [rewrite skipn_length; lia|apply Forall_forall; intros x X; rewrite Forall_forall in F; apply F; rewrite <- (firstn_skipn n bs); apply in_or_app; right; exact X|].
  exists w. rewrite <- (firstn_skipn n bs). eapply dec_bind; eassumption.
Qed.
Lemma skips_ret : forall A (a : A), skips (rret a) 0.
Proof. intros A a [|? ?] L F; [|discriminate]. exists a. apply dec_ret. Qed.
Lemma dec_skip : forall A B (m : reader A) (k : reader B) n r bs v, skips m n -> (n <= length r)%nat -> Forall byte r -> dec false false k (skipn n r ++ bs) v ->
  dec false false (rdo _ <- m; k) (r ++ bs) v.
Proof.
  intros A B m k n r bs v M L F K. destruct (M (firstn n r)) as (w & D); [rewrite firstn_length; lia|apply Forall_forall; intros x X; rewrite Forall_forall in F; apply F; rewrite <- (firstn_skipn n r); apply in_or_app; left; exact X|].
  replace (r ++ bs) with (firstn n r ++ skipn n r ++ bs) by (rewrite app_assoc, firstn_skipn; reflexivity). eapply dec_bind; [exact D|exact K].
Qed.
Lemma forall_skipn : forall n r, Forall byte r -> Forall byte (skipn n r).
Proof. intros n r F. apply Forall_forall. intros x X. rewrite Forall_forall in F. apply F. rewrite <- (firstn_skipn n r). apply in_or_app. right. exact X. Qed.
Lemma skips_uuid : forall old, length old = 8%nat -> skips (get_uuid old) 16.
Proof.
  intros old O. unfold get_uuid. change 16%nat with (4 + (2 + (2 + (8 + 0))))%nat.
  apply skips_bind; [exact skips_u32|intros a]. apply skips_bind; [exact skips_u16|intros b]. apply skips_bind; [exact skips_u16|intros c].
  apply skips_bind; [|intros d; apply skips_ret]. intros bs L F. exists bs. apply dec_mem; [lia|congruence].
Qed.
Lemma skips_mem : skips (get_mem_into 6 (repeat 0 6) 6) 6.
Proof. intros bs L F. exists bs. apply dec_mem; [lia|symmetry; exact L]. Qed.
Ltac skip lem :=
  match goal with |- dec _ _ _ (?r ++ _) _ =>
    eapply dec_skip; [exact lem|lia|assumption|];
    match goal with |- dec _ _ _ (skipn ?n r ++ _) _ =>
      let L := fresh "L" in let F := fresh "F" in
      assert (L : length (skipn n r) = (length r - n)%nat) by apply skipn_length;
      assert (F : Forall byte (skipn n r)) by (apply forall_skipn; assumption);
      let q := fresh "q" in set (q := skipn n r) in *; clearbody q
    end
  end.
Lemma dec_lookup : forall i m mid, 0 <= i < 4294967296 -> 0 <= m < 4294967296 -> Forall byte mid -> length mid = 68%nat ->
  dec false false get_lookup (e32 false i ++ mid ++ e32 false m) (mkLookup i m).
Proof.
  intros i m mid I M F L. unfold get_lookup. eapply dec_bind; [apply dec_u32; exact I|].
  assert (U : skips (get_uuid (repeat 0 8)) 16) by (apply skips_uuid; reflexivity).
  skip skips_u32. skip U. skip skips_u32. skip U. skip skips_u16. skip skips_u16. skip skips_u32.
  skip skips_u32. skip skips_u32. skip skips_u16. skip skips_u16. skip skips_byte. skip skips_byte. skip skips_mem.
  match goal with |- dec _ _ _ (?x ++ _) _ => destruct x as [|? ?]; [|cbn [length] in *; lia] end.
  cbn [app]. eapply dec_last; [apply dec_u32; exact M|reflexivity].
Qed.

(** * Theorems *)

(** C119: a request is read whatever its bytes are; from a complete one the type of the
    inquiry and the number of entries are read. *)
Theorem C119_request : (forall r, rok r -> exists q r', get_lookup r = Ok (q, r')) /\
  (forall r i m, complete r i m -> 0 <= i < 4294967296 -> 0 <= m < 4294967296 -> exists r', get_lookup r = Ok (mkLookup i m, r')).
Proof.
  split.
  - intros r R. destruct (lookup_safe false r R) as (q & r' & E & _). exists q, r'. exact E.
  - intros r i m (pre & mid & post & len & -> & _ & F & _ & L & L1 & L2 & L3) I M.
    assert (LL : length (e32 false i ++ mid ++ e32 false m) = 76%nat) by (rewrite !app_length, !e32_length, L; reflexivity).
    eexists. apply (dec_lookup i m mid I M F L); rewrite ?app_length, ?LL in *; lia.
Qed.
Print Assumptions C119_request.

Lemma complete_ok : forall r i m, complete r i m -> 0 <= i < 4294967296 -> 0 <= m < 4294967296 -> rok r.
Proof.
  intros r i m (pre & mid & post & len & -> & B1 & F & B2 & L & L1 & L2 & L3) I M.
  assert (LL : length (e32 false i ++ mid ++ e32 false m) = 76%nat) by (rewrite !app_length, !e32_length, L; reflexivity).
  set (w := e32 false i ++ mid ++ e32 false m) in *. assert (Fw : Forall byte w).
  { assert (E : forall v, 0 <= v < 4294967296 -> Forall byte (e32 false v)).
    { intros v V. unfold e32, e16, byte. repeat constructor; Z.div_mod_to_equations; lia. }
    subst w. apply Forall_app. split; [apply E; exact I|]. apply Forall_app. split; [exact F|apply E; exact M]. }
  clearbody w. unfold rok. cbn [r_pos r_len r_buf]. rewrite (app_length pre), (app_length w), LL. repeat split; try lia.
  repeat (apply Forall_app; split); auto.
Qed.

(** C119: the answer to a request, in 40 or 216 bytes. *)
Theorem C119_answer : forall g now ip seq q, cfg_ok g -> 0 <= now < 4294967296 -> 0 <= ip < 4294967296 -> 0 <= seq ->
  let (y, kill) := answer false g now ip seq q in
  kill = ends seq q /\
  match wants seq q with
  | Some e => exists x, writes (put_reply false g y) 216 x /\ tells g now ip e x
  | None => writes (put_reply false g y) 40 none_told
  end.
Proof.
  intros g now ip seq q G N I S1.
  assert (T : forall e, exists x, writes (put_reply false g (endpoint_reply g now ip e)) 216 x /\ tells g now ip e x).
  { intros e. eexists. split.
    - pose proof (writes_of _ _ _ (enc_told g now ip e G N I) (dec_told g now ip e G N)) as W. rewrite app_length, (eanswer_length g now ip e G) in W. exact W.
    - exists (annotation g). destruct (annotation_length g G) as (A & B). split; [reflexivity|]. split; assumption. }
  assert (W0 : writes (put_reply false g no_reply) 40 none_told) by exact (writes_of _ _ _ (enc_none g) dec_none).
  unfold answer, wants, ends. destruct (0 <? l_max q); cbn [andb]; [|split; [reflexivity|exact W0]].
  destruct (l_inquiry q =? 0); cbn [andb]; [|split; [reflexivity|exact W0]].
  destruct (Z.eqb_spec seq 0) as [->|N0]; [split; [reflexivity|apply (T Mapper)]|].
  destruct (Z.eqb_spec seq 1) as [->|N1]; [split; [reflexivity|apply (T Io)]|].
  split; [symmetry; apply Z.leb_le; lia|exact W0].
Qed.
Print Assumptions C119_answer.

(** C119: a session of requests, whatever they are: each is answered by its number; the
    session ends at the first request for all entries that is not one of the first two. *)
Theorem C119_session : forall g l, cfg_ok g -> Forall asked_ok l -> Z.of_nat (length l) <= 4294967296 ->
  exists fs k, session g 0 l = Ok (fs, k) /\ (length fs <= length l)%nat /\ (k = false -> length fs = length l) /\
  forall i f, nth_error fs i = Some f -> exists x q r', nth_error l i = Some x /\ get_lookup (k_req x) = Ok (q, r') /\
    match wants (Z.of_nat i) q with
    | Some e => exists t, writes f 216 t /\ tells g (k_now x) (k_ip x) e t
    | None => writes f 40 none_told
    end /\
    (ends (Z.of_nat i) q = true <-> k = true /\ S i = length fs).
Proof.
  intros g l G. cut (forall l s, Forall asked_ok l -> Z.of_nat (s + length l) <= 4294967296 ->
    exists fs k, session g (Z.of_nat s) l = Ok (fs, k) /\ (length fs <= length l)%nat /\ (k = false -> length fs = length l) /\ (k = true -> fs <> []) /\
    forall i f, nth_error fs i = Some f -> exists x q r', nth_error l i = Some x /\ get_lookup (k_req x) = Ok (q, r') /\
    match wants (Z.of_nat (s + i)) q with Some e => exists t, writes f 216 t /\ tells g (k_now x) (k_ip x) e t | None => writes f 40 none_told end /\
    (ends (Z.of_nat (s + i)) q = true <-> k = true /\ S i = length fs)).
  { intros C A L. destruct (C l 0%nat A L) as (fs & k & E & L1 & K & _ & H). exists fs, k. auto. }
  clear l. induction l as [|x l IH]; intros s A L.
  - exists [], false. split; [reflexivity|]. split; [cbn; lia|]. split; [reflexivity|]. split; [discriminate|]. intros [|i] f F; discriminate F.
  - inversion A as [|? ? (N & I & R) A']; subst. cbn [session length] in *. unfold lookup_ind.
    destruct (proj1 C119_request _ R) as (q & r' & Q). rewrite Q. cbn [obind].
    pose proof (C119_answer g (k_now x) (k_ip x) (Z.of_nat s) q G N I ltac:(lia)) as W.
    destruct (answer false g (k_now x) (k_ip x) (Z.of_nat s) q) as [y kill]. destruct W as (Ke & W). cbn [obind].
    destruct kill.
    + exists [put_reply false g y], true. split; [reflexivity|]. split; [cbn; lia|]. split; [discriminate|]. split; [discriminate|].
      intros [|i] f F; [|destruct i; discriminate F]. cbn in F. injection F as <-. exists x, q, r'. rewrite Nat.add_0_r. repeat split; auto.
    + assert (U : (l = [] /\ True) \/ u32 (Z.of_nat s + 1) = Z.of_nat (S s)).
      { destruct l as [|x' l]; [left; auto|right]. cbn [length] in L. unfold u32. rewrite Z.mod_small; lia. }
      destruct U as [(-> & _)|U].
      * cbn [session obind]. exists [put_reply false g y], false. split; [reflexivity|]. split; [cbn; lia|]. split; [reflexivity|]. split; [discriminate|].
        intros [|i] f F; [|destruct i; discriminate F]. cbn in F. injection F as <-. exists x, q, r'. rewrite Nat.add_0_r, <- Ke. repeat split; auto; try discriminate. intros (K & _). discriminate K.
      * rewrite U. destruct (IH (S s) A' ltac:(lia)) as (fs & k & E & L1 & K & K1 & H). rewrite E. cbn [obind].
        exists (put_reply false g y :: fs), k. split; [reflexivity|]. split; [cbn; lia|]. split; [intros X; cbn; rewrite (K X); reflexivity|]. split; [discriminate|].
        intros [|i] f F.
        -- cbn in F. injection F as <-. exists x, q, r'. rewrite Nat.add_0_r, <- Ke. repeat split; auto; try discriminate. intros (X & Y). cbn in Y. destruct fs; [exfalso; apply (K1 X); reflexivity|discriminate Y].
        -- cbn in F. destruct (H i f F) as (x' & q' & r2 & X & Q' & W' & E'). exists x', q', r2. replace (s + S i)%nat with (S s + i)%nat by lia. cbn [nth_error length].
           repeat split; auto; try (apply E'; assumption).
           ++ match goal with Y : ends _ _ = true |- _ => destruct (proj1 E' Y) as (Y1 & Y2) end. lia.
           ++ intros (Y1 & Y2). apply E'. split; [exact Y1|lia].
Qed.
Print Assumptions C119_session.

(** C119: what a controller that reads all endpoints is told: the mapper, the I/O device,
    and that there are no more. *)
Theorem C119_all : forall g x0 x1 x2, cfg_ok g -> Forall asked_ok [x0; x1; x2] ->
  (forall x, In x [x0; x1; x2] -> exists m, 0 < m < 4294967296 /\ complete (k_req x) 0 m) ->
  exists f0 f1 f2 t0 t1, session g 0 [x0; x1; x2] = Ok ([f0; f1; f2], true) /\
  writes f0 216 t0 /\ tells g (k_now x0) (k_ip x0) Mapper t0 /\
  writes f1 216 t1 /\ tells g (k_now x1) (k_ip x1) Io t1 /\ writes f2 40 none_told.
Proof.
  intros g x0 x1 x2 G A H. destruct (C119_session g [x0; x1; x2] G A ltac:(cbn; lia)) as (fs & k & E & L & K & W).
  assert (Q : forall x q r', In x [x0; x1; x2] -> get_lookup (k_req x) = Ok (q, r') -> 0 < l_max q /\ l_inquiry q = 0).
  { intros x q r' X Y. destruct (H x X) as (m & M & C). destruct (proj2 C119_request _ _ _ C ltac:(lia) ltac:(lia)) as (r2 & Z2). rewrite Z2 in Y. injection Y as <- _. cbn. lia. }
  assert (B : forall q, 0 < l_max q /\ l_inquiry q = 0 -> (0 <? l_max q) && (l_inquiry q =? 0) = true) by (intros q (Q1 & Q2); apply andb_true_intro; split; [apply Z.ltb_lt|apply Z.eqb_eq]; assumption).
  destruct fs as [|f0 fs].
  { destruct k; [|specialize (K eq_refl); discriminate K]. cbn [session] in E. exfalso.
    destruct (lookup_ind false g (k_now x0) (k_ip x0) 0 (k_req x0)) as [[? [?|]]| |]; cbn [obind] in E; try discriminate E.
    match type of E with context [obind ?o _] => destruct o as [[? ?]| |]; discriminate E end. }
  destruct (W 0%nat f0 eq_refl) as (y0 & q0 & r0 & Y0 & Q0 & T0 & E0). injection Y0 as <-. pose proof (B _ (Q x0 _ _ ltac:(cbn; auto) Q0)) as B0. unfold wants, ends in T0, E0. rewrite B0 in T0, E0. cbn in T0, E0.
  destruct fs as [|f1 fs].
  { exfalso. destruct k; [|specialize (K eq_refl); discriminate K]. pose proof (proj2 E0 (conj eq_refl eq_refl)). discriminate. }
  destruct (W 1%nat f1 eq_refl) as (y1 & q1 & r1 & Y1 & Q1 & T1 & E1). injection Y1 as <-. pose proof (B _ (Q x1 _ _ ltac:(cbn; auto) Q1)) as B1. unfold wants, ends in T1, E1. rewrite B1 in T1, E1. cbn in T1, E1.
  destruct fs as [|f2 fs].
  { exfalso. destruct k; [|specialize (K eq_refl); discriminate K]. pose proof (proj2 E1 (conj eq_refl eq_refl)). discriminate. }
  destruct (W 2%nat f2 eq_refl) as (y2 & q2 & r2 & Y2 & Q2 & T2 & E2). injection Y2 as <-. pose proof (B _ (Q x2 _ _ ltac:(cbn; auto) Q2)) as B2. unfold wants, ends in T2, E2. rewrite B2 in T2, E2. cbn in T2, E2.
  destruct fs; [|cbn in L; lia].
  destruct T0 as (t0 & A0 & D0). destruct T1 as (t1 & A1 & D1). destruct (proj1 E2 eq_refl) as (-> & _).
  exists f0, f1, f2, t0, t1. repeat split; assumption.
Qed.
Print Assumptions C119_all.

(** * Examples, and what does not hold *)

Lemma writes_same : forall f n x m y, writes f n x -> writes f m y -> (n <= 216)%nat -> (m <= 216)%nat -> x = y.
Proof.
  intros f n x m y X Y N M. destruct (X (repeat 0 216) 216 0) as (b & E & _ & _ & G); try (rewrite ?repeat_length; lia).
  destruct (Y (repeat 0 216) 216 0) as (b' & E' & _ & _ & G'); try (rewrite ?repeat_length; lia).
  rewrite E in E'. injection E' as EB EN. subst b'. rewrite <- EN in G'. rewrite G in G'. injection G' as <-. reflexivity.
Qed.

Definition ex_cfg : ecfg := mkEcfg [112; 45; 110; 101; 116] [49; 50] 3 86 1 20 3 0 2 4 147 [2; 3; 4; 5; 6; 7].
Definition ex_req (i m : Z) : rd := mkRd (Some ([9; 9] ++ (e32 false i ++ repeat 7 68 ++ e32 false m) ++ [8])) 79 false POk 2.
Definition ex_asked (now i : Z) : asked := mkAsked now 3232235777 (ex_req i 5).
(** The text of an answer. *)
Definition text (f : writer) : option (told * Z) :=
  match f (mkWr (Some (repeat 255 300)) 300 7) with
  | Ok w => match w_buf w with Some b => match get_told (mkRd (Some b) (w_pos w) false POk 7) with Ok (t, _) => Some (t, w_pos w) | _ => None end | None => None end
  | _ => None
  end.
Definition texts (o : outcome (list writer * bool)) : option (list (option (told * Z)) * bool) :=
  match o with Ok (fs, k) => Some (map text fs, k) | _ => None end.
Lemma ex_cfg_ok : cfg_ok ex_cfg.
Proof. unfold cfg_ok. cbn. lia. Qed.
Lemma ex_complete : forall i, 0 <= i < 4294967296 -> complete (ex_req i 5) i 5.
Proof.
  intros i I. exists [9; 9], (repeat 7 68), [8], 79. split; [reflexivity|]. unfold byte.
  split; [repeat constructor; lia|]. split; [apply Forall_forall; intros x X; apply repeat_spec in X; lia|]. split; [repeat constructor; lia|].
  rewrite repeat_length. cbn [length]. lia.
Qed.
Lemma ex_asked_ok : forall now i, 0 <= now < 4294967296 -> 0 <= i < 4294967296 -> asked_ok (ex_asked now i).
Proof. intros now i N I. split; [exact N|]. split; [cbn; lia|]. refine (complete_ok _ i 5 _ I ltac:(lia)). apply ex_complete. exact I. Qed.

(** Three requests for all entries: what the controller reads. *)
Example C119_example :
  Forall asked_ok [ex_asked 1000 0; ex_asked 2000 0; ex_asked 3000 0] /\
  (forall x, In x [ex_asked 1000 0; ex_asked 2000 0; ex_asked 3000 0] -> exists m, 0 < m < 4294967296 /\ complete (k_req x) 0 m) /\
  exists a,
  texts (session ex_cfg 0 [ex_asked 1000 0; ex_asked 2000 0; ex_asked 3000 0]) =
  Some ([Some (mkTold 0 [232; 3; 0; 0; 0; 0; 0; 16; 128; 12; 2; 3; 4; 5; 6; 7] 1 1 0 (Some (mkEntry (repeat 0 16) 3 a (75, 75)
           [([13; 8; 131; 175; 225; 31; 93; 201; 17; 145; 164; 8; 0; 43; 20; 160; 250; 3; 0], [0; 0]);
            ([13; 4; 93; 136; 138; 235; 28; 201; 17; 159; 232; 8; 0; 43; 16; 72; 96; 2; 0], [0; 0]);
            ([10], [0; 0]); ([8], [136; 148]); ([9], [192; 168; 1; 1])])) 0, 223);
         Some (mkTold 0 [208; 7; 0; 0; 0; 0; 0; 16; 128; 12; 2; 3; 4; 5; 6; 7] 1 1 0 (Some (mkEntry
           [0; 0; 160; 222; 151; 108; 209; 17; 130; 113; 0; 1; 0; 2; 4; 147] 3 a (75, 75)
           [([13; 1; 0; 160; 222; 151; 108; 209; 17; 130; 113; 0; 160; 36; 66; 223; 125; 1; 0], [0; 0]);
            ([13; 4; 93; 136; 138; 235; 28; 201; 17; 159; 232; 8; 0; 43; 16; 72; 96; 2; 0], [0; 0]);
            ([10], [0; 0]); ([8], [192; 3]); ([9], [192; 168; 1; 1])])) 0, 223);
         Some (none_told, 47)], true) /\
  firstn 27 a = [112; 45; 110; 101; 116] ++ repeat 32 21 ++ [49] /\ length a = 64%nat.
Proof.
  split; [repeat constructor; cbn; try lia; try (refine (complete_ok _ 0 5 (ex_complete 0 _) _ _); lia)|].
  split; [intros x X; exists 5; split; [lia|]; cbn in X; destruct X as [<-|[<-|[<-|[]]]]; apply ex_complete; lia|].
  exists (annotation ex_cfg). vm_compute. repeat split.
Qed.

(** C119: requests that are not answered with an endpoint are counted: a controller that then
    asks for all entries, three times, is not told the mapper. *)
Theorem C119_counted_refuted : exists g x0 x1 x2 x3, cfg_ok g /\ Forall asked_ok [x0; x1; x2; x3] /\
  (forall x, In x [x1; x2; x3] -> complete (k_req x) 0 5) /\
  exists fs k, session g 0 [x0; x1; x2; x3] = Ok (fs, k) /\
  forall f t now ip n, In f fs -> (n <= 216)%nat -> writes f n t -> ~ tells g now ip Mapper t.
Proof.
  exists ex_cfg, (ex_asked 1000 1), (ex_asked 2000 0), (ex_asked 3000 0), (ex_asked 4000 0). split; [exact ex_cfg_ok|].
  assert (A : Forall asked_ok [ex_asked 1000 1; ex_asked 2000 0; ex_asked 3000 0; ex_asked 4000 0]) by (repeat (constructor; [apply ex_asked_ok; lia|]); constructor).
  split; [exact A|]. split; [intros x X; cbn in X; destruct X as [<-|[<-|[<-|[]]]]; apply ex_complete; lia|].
  destruct (C119_session ex_cfg _ ex_cfg_ok A ltac:(cbn; lia)) as (fs & k & E & L & K & H). exists fs, k. split; [exact E|].
  intros f t now ip n F N W (a & T & _ & _). apply In_nth_error in F. destruct F as (i & F).
  destruct (H i f F) as (x & q & r' & X & Q & Y & _).
  assert (NM : wants (Z.of_nat i) q <> Some Mapper).
  { destruct i as [|i].
    - injection X as <-. destruct (proj2 C119_request _ 1 5 (ex_complete 1 ltac:(lia)) ltac:(lia) ltac:(lia)) as (r2 & Q2). cbn [k_req ex_asked] in Q. rewrite Q2 in Q. injection Q as <- _. discriminate.
    - unfold wants. destruct (_ && _); [|discriminate]. replace (Z.of_nat (S i) =? 0) with false by (symmetry; apply Z.eqb_neq; lia). destruct (Z.of_nat (S i) =? 1); discriminate. }
  destruct (wants (Z.of_nat i) q) as [[|]|]; [contradiction (NM eq_refl)| |].
  - destruct Y as (t' & W' & (a' & T' & _)). pose proof (writes_same _ _ _ _ _ W W' N ltac:(lia)) as Eq. rewrite T, T' in Eq. discriminate Eq.
  - pose proof (writes_same _ _ _ _ _ W Y N ltac:(lia)) as Eq. rewrite T in Eq. discriminate Eq.
Qed.
Print Assumptions C119_counted_refuted.

(** C119: the handle is not unique: it repeats every 65536 microseconds. *)
Theorem C119_handle_refuted : exists g now now' ip t t', cfg_ok g /\ now <> now' /\
  writes (put_reply false g (fst (answer false g now ip 0 (mkLookup 0 1)))) 216 t /\ tells g now ip Mapper t /\
  writes (put_reply false g (fst (answer false g now' ip 0 (mkLookup 0 1)))) 216 t' /\ tells g now' ip Mapper t' /\
  o_handle t = o_handle t'.
Proof.
  pose proof (C119_answer ex_cfg 1000 3232235777 0 (mkLookup 0 1) ex_cfg_ok ltac:(lia) ltac:(lia) ltac:(lia)) as A.
  pose proof (C119_answer ex_cfg 66536 3232235777 0 (mkLookup 0 1) ex_cfg_ok ltac:(lia) ltac:(lia) ltac:(lia)) as B.
  destruct (answer false ex_cfg 1000 3232235777 0 (mkLookup 0 1)) as [y k] eqn:EA. destruct (answer false ex_cfg 66536 3232235777 0 (mkLookup 0 1)) as [y' k'] eqn:EB.
  destruct A as (_ & t & W & T). destruct B as (_ & t' & W' & T').
  exists ex_cfg, 1000, 66536, 3232235777, t, t'. split; [exact ex_cfg_ok|]. split; [lia|]. rewrite EA, EB. cbn [fst]. repeat (split; [assumption|]).
  destruct T as (? & -> & _). destruct T' as (? & -> & _). reflexivity.
Qed.
Print Assumptions C119_handle_refuted.

(** C119: on a host that is big-endian the port and the address are told with their bytes
    swapped. *)
Theorem C119_big_endian_refuted : exists g now ip, cfg_ok g /\
  exists t n e, text (put_reply false g (fst (answer true g now ip 0 (mkLookup 0 1)))) = Some (t, n) /\ o_entry t = Some e /\
  nth 3 (n_floors e) ([], []) = ([8], [148; 136]) /\ nth 4 (n_floors e) ([], []) = ([9], [ip mod 256; ip / 256 mod 256; ip / 65536 mod 256; ip / 16777216]) /\ forall x, tells g now ip Mapper x -> x <> t.
Proof.
  exists ex_cfg, 1000, 3232235777. split; [exact ex_cfg_ok|]. do 3 eexists. split; [vm_compute; reflexivity|]. split; [reflexivity|]. split; [reflexivity|]. split; [reflexivity|].
  intros x (a & -> & _) E. injection E as E. discriminate.
Qed.
Print Assumptions C119_big_endian_refuted.
