(** The record that tells about the connections of a device (C122). *)
From Coq Require Import List ZArith Arith Bool Lia.
From Verif Require Import Base DiffModel BlockModel BlockReadLemmas BlockWriteProps DiffBlockProps ConnRspModel ConnRspProps ArDataModel.
Import ListNotations.
Local Open Scope Z_scope.

(** * Specification *)

(** ARData (IEC 61158-6-10): per connection, with padding to multiples of four bytes from its
    start: the identifiers of the connection, of the controller and of the parameter server,
    the properties, types, references, ports and name of the controller, the name of the
    parameter server, the relations (class, type, frame id, cycle, data status, transfer
    status), the APIs, and the number of further blocks. *)
Record entry := mkEntry { t_uuid : uuid; t_obj : uuid; t_server : uuid; t_props : props; t_type : Z; t_alarm : Z; t_remote : Z; t_local : Z; t_iport : Z; t_rport : Z;
  t_name : list Z; t_sname : list Z; t_rels : list (Z * Z * Z * Z * Z * Z); t_apis : list Z; t_further : Z }.
Definition props_from (v : Z) : props :=
  mkProps (v mod 8) (bit v 3) (bit v 4) (bit v 8) (v / 512 mod 4) (bit v 11) (bit v 29) (bit v 30) (bit v 31).
Definition get_rel : reader (Z * Z * Z * Z * Z * Z) :=
  rdo c <- get_u32; rdo t <- get_u16; rdo f <- get_u16; rdo y <- get_u16; rdo s <- get_byte; rdo x <- get_byte; rret (c mod 16, t, f, y, s, x).
Definition pad4 (n : nat) : reader (list Z) := get_bytes (up4 n - n).
Definition get_entry : reader entry :=
  rdo u <- get_uuid (repeat 0 8); rdo o <- get_uuid (repeat 0 8); rdo ps <- get_uuid (repeat 0 8); rdo w <- get_u32; rdo ty <- get_u16; rdo at_ <- get_u16;
  rdo rr <- get_u16; rdo lr <- get_u16; rdo ip <- get_u16; rdo rp <- get_u16;
  rdo n <- get_u16; rdo name <- get_bytes (Z.to_nat n); rdo _ <- pad4 (66 + Z.to_nat n);
  rdo m <- get_u16; rdo sname <- get_bytes (Z.to_nat m); rdo _ <- pad4 (2 + Z.to_nat m);
  rdo k <- get_u16; rdo _ <- pad4 2; rdo rels <- rlist get_rel (Z.to_nat k);
  rdo i <- get_u16; rdo _ <- pad4 2; rdo apis <- rlist get_u32 (Z.to_nat i);
  rdo z <- get_u16; rdo _ <- pad4 2;
  rret (mkEntry u o ps (props_from w) ty at_ rr lr ip rp name sname rels apis z).
Definition get_ar_data : reader (bhead * list entry) := rdo h <- get_block_header; rdo l <- counted get_entry; rret (h, l).

(** What is told about a connection. *)
Definition told (a : ard) : entry :=
  mkEntry (d_uuid a) (d_obj a) (mkUuid 0 0 0 [0; 0; 0; 0; 0; 0; 0; 0]) (d_props a) (d_type a) (d_alarm a) (d_remote a) (d_local a) (d_iport a) (d_rport a) (d_name a) []
    (map (fun r => (l_class r, l_type r, l_frame r, 0, if (l_type r =? 1) || (l_type r =? 3) then l_ppm r else l_cpm r, 0)) (d_rels a)) (d_apis a)
    (2 * Z.of_nat (d_vendors a)).
Definition entry_size (a : ard) : nat := (up4 (66 + length (d_name a)) + 16 + 12 * length (d_rels a) + 4 * length (d_apis a))%nat.
Definition conns (t : list (option ard)) : list ard := flat_map (fun o => match o with Some a => [a] | None => [] end) t.
Definition props_ok (f : props) : Prop := 0 <= f_state f < 8 /\ 0 <= f_companion f < 4.
Definition rel_ok (r : rel) : Prop := 0 <= l_class r < 16 /\ u16_ok (l_type r) /\ u16_ok (l_frame r) /\ byte (l_ppm r) /\ byte (l_cpm r).
Definition ard_ok (a : ard) : Prop :=
  uuid_ok (d_uuid a) /\ uuid_ok (d_obj a) /\ props_ok (d_props a) /\ u16_ok (d_type a) /\ u16_ok (d_alarm a) /\ u16_ok (d_remote a) /\ u16_ok (d_local a) /\ u16_ok (d_iport a) /\ u16_ok (d_rport a) /\
  (length (d_name a) <= 240)%nat /\ Forall rel_ok (d_rels a) /\ Forall u32_ok (d_apis a) /\ (d_vendors a <= 255)%nat.
(** The round trip, from a position that is a multiple of four. *)
Definition round_trip4 {A} (put : writer) (get : reader A) (x : A) (n : nat) : Prop :=
  forall b len rlen pos,
  0 <= pos -> pos mod 4 = 0 -> pos + Z.of_nat n <= len <= Z.of_nat (length b) -> len < 65536 -> pos + Z.of_nat n <= rlen <= Z.of_nat (length b) -> rlen < 65536 ->
  exists b', put (mkWr (Some b) len pos) = Ok (mkWr (Some b') len (pos + Z.of_nat n)) /\ length b' = length b /\
    firstn (Z.to_nat pos) b' = firstn (Z.to_nat pos) b /\ skipn (Z.to_nat pos + n) b' = skipn (Z.to_nat pos + n) b /\
    get (mkRd (Some b') rlen true POk pos) = Ok (x, mkRd (Some b') rlen true POk (pos + Z.of_nat n)).

(** * The properties *)

Lemma props_word_val : forall f, props_ok f -> props_word f = f_state f + b2z (f_takeover f) * 8 + b2z (f_server f) * 16 + b2z (f_access f) * 256 + f_companion f * 512 +
  b2z (f_ack f) * 2048 + b2z (f_combined f) * 536870912 + b2z (f_advanced f) * 1073741824 + b2z (f_pull f) * 2147483648.
Proof.
  intros f (A & B). unfold props_word. assert (P : forall b, 0 <= b2z b <= 1) by (intros []; cbn [b2z]; lia).
  pose proof (P (f_takeover f)). pose proof (P (f_server f)). pose proof (P (f_access f)). pose proof (P (f_ack f)). pose proof (P (f_combined f)). pose proof (P (f_advanced f)). pose proof (P (f_pull f)).
  rewrite (put_bits_val (f_state f) 3 0 0) by lia. change (2 ^ 0) with 1.
  rewrite (put_bits_val _ 1 3) by lia. change (2 ^ 3) with 8. rewrite (put_bits_val _ 1 4) by lia. change (2 ^ 4) with 16. rewrite (put_bits_val _ 1 8) by lia. change (2 ^ 8) with 256.
  rewrite (put_bits_val (f_companion f) 2 9) by lia. change (2 ^ 9) with 512. rewrite (put_bits_val _ 1 11) by lia. change (2 ^ 11) with 2048.
  rewrite (put_bits_val _ 1 29) by lia. change (2 ^ 29) with 536870912. rewrite (put_bits_val _ 1 30) by lia. change (2 ^ 30) with 1073741824.
  rewrite (put_bits_val _ 1 31) by lia. change (2 ^ 31) with 2147483648. lia.
Qed.
Lemma props_word_range : forall f, props_ok f -> 0 <= props_word f < 4294967296.
Proof.
  intros f H. rewrite (props_word_val f H). destruct H as (A & B). assert (P : forall b, 0 <= b2z b <= 1) by (intros []; cbn [b2z]; lia).
  pose proof (P (f_takeover f)). pose proof (P (f_server f)). pose proof (P (f_access f)). pose proof (P (f_ack f)). pose proof (P (f_combined f)). pose proof (P (f_advanced f)). pose proof (P (f_pull f)). lia.
Qed.
Lemma props_back : forall f, props_ok f -> props_from (props_word f) = f.
Proof.
  intros f H. unfold props_from, bit. rewrite (props_word_val f H). destruct H as (A & B). destruct f as [st tk sv ac co ak cm av pl]. cbn [f_state f_takeover f_server f_access f_companion f_ack f_combined f_advanced f_pull] in *.
  assert (P : forall b, 0 <= b2z b <= 1) by (intros []; cbn [b2z]; lia).
  pose proof (P tk). pose proof (P sv). pose proof (P ac). pose proof (P ak). pose proof (P cm). pose proof (P av). pose proof (P pl). clear P.
  change (2 ^ 3) with 8. change (2 ^ 4) with 16. change (2 ^ 8) with 256. change (2 ^ 11) with 2048. change (2 ^ 29) with 536870912. change (2 ^ 30) with 1073741824. change (2 ^ 31) with 2147483648.
  f_equal; try (apply odd_mod); Z.div_mod_to_equations; lia.
Qed.

(** * Writing from an aligned position *)

Definition ena (k : Z) (f : writer) (bs : list Z) : Prop :=
  forall b len pos, 0 <= pos -> pos mod 4 = k -> pos + Z.of_nat (length bs) <= len -> len <= Z.of_nat (length b) -> len < 65536 ->
  f (mkWr (Some b) len pos) = Ok (mkWr (Some (put_at b (Z.to_nat pos) bs)) len (pos + Z.of_nat (length bs))).
Lemma ena_of : forall k f bs, enc f bs -> ena k f bs.
Proof. intros k f bs E b len pos P _ L M N. apply E; assumption. Qed.
Lemma ena_seq : forall k k' f g x y, ena k f x -> (k + Z.of_nat (length x)) mod 4 = k' -> ena k' g y -> ena k (f ;; g) (x ++ y).
Proof.
  intros k k' f g x y F K G b len pos P Q L M N. unfold wseq. rewrite app_length in L. rewrite F by (try assumption; lia). cbn [obind].
  rewrite G; try (rewrite ?put_at_length by lia; lia).
  - rewrite app_length. f_equal. f_equal; [|lia]. replace (Z.to_nat (pos + Z.of_nat (length x))) with (Z.to_nat pos + length x)%nat by lia. rewrite put_at_app by lia. reflexivity.
  - rewrite <- K, <- Q. rewrite Zplus_mod_idemp_l. reflexivity.
Qed.
Lemma ena_align : forall k p fuel, (3 <= fuel)%nat -> (p <= 3)%nat -> (k + Z.of_nat p) mod 4 = 0 -> ena k (align fuel 0) (repeat 0 p).
Proof.
  intros k p fuel F P K b len pos A Q L M N. rewrite repeat_length in *. rewrite (enc_align p) by (try assumption; try lia; rewrite Z.sub_0_r, <- K, <- Q, Zplus_mod_idemp_l; reflexivity).
  pose proof (enc_padding p b len pos A) as E. rewrite repeat_length in E. apply E; assumption.
Qed.
Lemma ena_each : forall A k (f : A -> writer) (e : A -> list Z) l, (forall x, In x l -> ena k (f x) (e x) /\ Z.of_nat (length (e x)) mod 4 = 0) -> 0 <= k < 4 -> ena k (each f l) (flat_map e l).
Proof.
  intros A k f e l. induction l as [|x l IH]; intros H K; [apply ena_of; exact enc_skip|]. cbn [each flat_map]. destruct (H x (or_introl eq_refl)) as (E & L).
  apply (ena_seq k k); [exact E| |apply IH; [intros y I; apply H; right; exact I|exact K]]. rewrite Z.add_mod, L, Z.add_0_r, Z.mod_mod by lia. apply Z.mod_small. exact K.
Qed.

(** * The text *)

Definition e_rel (be : bool) (r : rel) : list Z := e32 be (l_class r) ++ e16 be (l_type r) ++ e16 be (l_frame r) ++ e16 be 0 ++ [rel_status r] ++ [0].
Definition e_entry (be : bool) (a : ard) : list Z :=
  euuid be (d_uuid a) ++ euuid be (d_obj a) ++ euuid be nil_uuid ++ e32 be (props_word (d_props a)) ++ e16 be (d_type a) ++
  e16 be (d_alarm a) ++ e16 be (d_remote a) ++ e16 be (d_local a) ++ e16 be (d_iport a) ++ e16 be (d_rport a) ++
  e16 be (Z.of_nat (length (d_name a))) ++ d_name a ++ repeat 0 (pad_to (66 + length (d_name a))) ++
  e16 be 0 ++ repeat 0 2 ++ e16 be (Z.of_nat (length (d_rels a))) ++ repeat 0 2 ++ flat_map (e_rel be) (d_rels a) ++
  e16 be (Z.of_nat (length (d_apis a))) ++ repeat 0 2 ++ flat_map (e32 be) (d_apis a) ++ e16 be (2 * Z.of_nat (d_vendors a)) ++ repeat 0 2.
Lemma nil_ok : uuid_ok nil_uuid.
Proof. unfold uuid_ok, nil_uuid. cbn. repeat split; lia. Qed.
Lemma e_rel_length : forall be r, length (e_rel be r) = 12%nat.
Proof. intros. unfold e_rel. rewrite !app_length, e32_length, !e16_length. reflexivity. Qed.
Lemma flat_len : forall A (e : A -> list Z) n l, (forall x, length (e x) = n) -> length (flat_map e l) = (n * length l)%nat.
Proof. intros A e n l H. induction l as [|x l IH]; cbn [flat_map length]; [lia|]. rewrite app_length, H, IH. lia. Qed.
Lemma e_entry_length : forall be a, uuid_ok (d_uuid a) -> uuid_ok (d_obj a) -> length (e_entry be a) = entry_size a.
Proof.
  intros be a U O. unfold e_entry, entry_size. rewrite !app_length, !repeat_length, !(euuid_length be) by (try assumption; exact nil_ok).
  rewrite !e16_length, e32_length. rewrite (flat_len _ _ 12) by apply e_rel_length. rewrite (flat_len _ _ 4) by apply e32_length.
  unfold pad_to. pose proof (up4_spec (66 + length (d_name a))) as (A & B & _). lia.
Qed.
Lemma entry_four : forall a, Z.of_nat (entry_size a) mod 4 = 0.
Proof.
  intros a. unfold entry_size. pose proof (up4_spec (66 + length (d_name a))) as (_ & _ & C).
  rewrite !Nat2Z.inj_add. rewrite !Nat2Z.inj_mul. apply Z.mod_divide in C; [|lia]. destruct C as (q & C). rewrite C. apply Z.mod_divide; [lia|].
  exists (q + 4 + 3 * Z.of_nat (length (d_rels a)) + Z.of_nat (length (d_apis a))). lia.
Qed.
Lemma enc_rel : forall be r, rel_ok r -> enc (put_iocr be r) (e_rel be r).
Proof.
  intros be r (A & B & C & D & E). unfold put_iocr, e_rel, u16_ok in *. rewrite (put_bits_val (l_class r) 4 0 0) by lia. change (2 ^ 0) with 1. rewrite Z.mul_1_r, Z.add_0_l.
  apply enc_seq; [apply enc_u32; lia|]. apply enc_seq; [apply enc_u16; exact B|]. apply enc_seq; [apply enc_u16; exact C|]. apply enc_seq; [apply enc_u16; lia|].
  apply enc_seq; apply enc_byte; [|unfold byte; lia]. unfold rel_status. destruct ((l_type r =? 1) || (l_type r =? 3)); assumption.
Qed.
Lemma ena_further : forall fuel be n, (3 <= fuel)%nat -> u16_ok n -> ena 0 (put_further fuel be n) (e16 be n ++ repeat 0 2).
Proof.
  intros fuel be n F U b len pos P Q L M N. rewrite app_length, e16_length, repeat_length in *. unfold put_further. cbn [w_pos].
  assert (E : ena 0 (put_u16 be 0 ;; align fuel 0) (e16 be 0 ++ repeat 0 2)).
  { apply (ena_seq 0 2); [apply ena_of; apply enc_u16; lia|rewrite e16_length; reflexivity|]. apply ena_align; [exact F|lia|reflexivity]. }
  rewrite E; [|assumption|assumption|rewrite app_length, e16_length, repeat_length; lia|assumption|assumption]. cbn [obind w_buf w_len w_pos].
  assert (E2 : enc (put_u16 be n) (e16 be n)) by (apply enc_u16; exact U).
  rewrite E2; [|assumption|rewrite e16_length; lia|rewrite put_at_length; [assumption|rewrite app_length, e16_length, repeat_length; lia]|assumption]. cbn [obind w_buf w_len].
  pose proof (put_at_over b (Z.to_nat pos) [] (e16 be 0) (e16 be n) (repeat 0 2)) as O. cbn [app length] in O. rewrite Nat.add_0_r in O.
  rewrite O; [|rewrite !e16_length; reflexivity|rewrite app_length, e16_length, repeat_length; lia]. f_equal. f_equal. rewrite !app_length, !e16_length, repeat_length. lia.
Qed.
Lemma api_count : forall (P : Z -> Prop) l, Forall P l -> forall i, (forall x, In x l -> x = i) -> filter (fun x => x =? i) l = l.
Proof.
  intros P l F i H. clear F. induction l as [|x l IH]; [reflexivity|]. cbn [filter]. rewrite (H x (or_introl eq_refl)), Z.eqb_refl. f_equal. apply IH. intros y I. apply H. right. exact I.
Qed.
Lemma ena_entry : forall fuel be only a, (3 <= fuel)%nat -> ard_ok a -> Z.of_nat (entry_size a) < 65536 -> (forall i, only = Some i -> forall x, In x (d_apis a) -> x = i) ->
  ena 0 (put_one_ar fuel be only a) (e_entry be a).
Proof.
  intros fuel be only a F (U & O & PR & T & A & R & L & IP & RP & NL & RL & AP & VN) SZ FO. unfold u16_ok in *.
  assert (OA : match only with None => d_apis a | Some i => filter (fun x => x =? i) (d_apis a) end = d_apis a) by (destruct only as [i|]; [apply (api_count _ _ AP); apply FO; reflexivity|reflexivity]).
  unfold put_one_ar, e_entry. rewrite OA. pose proof (up4_spec (66 + length (d_name a))) as (U1 & U2 & U3). unfold entry_size in SZ.
  apply (ena_seq 0 0); [apply ena_of, enc_uuid; exact U|rewrite (euuid_length be _ U); reflexivity|].
  apply (ena_seq 0 0); [apply ena_of, enc_uuid; exact O|rewrite (euuid_length be _ O); reflexivity|].
  apply (ena_seq 0 0); [apply ena_of, enc_uuid; exact nil_ok|rewrite (euuid_length be _ nil_ok); reflexivity|].
  apply (ena_seq 0 0); [apply ena_of, enc_u32; apply props_word_range; exact PR|rewrite e32_length; reflexivity|].
  apply (ena_seq 0 2); [apply ena_of, enc_u16; exact T|rewrite e16_length; reflexivity|].
  apply (ena_seq 2 0); [apply ena_of, enc_u16; exact A|rewrite e16_length; reflexivity|].
  apply (ena_seq 0 2); [apply ena_of, enc_u16; exact R|rewrite e16_length; reflexivity|].
  apply (ena_seq 2 0); [apply ena_of, enc_u16; exact L|rewrite e16_length; reflexivity|].
  apply (ena_seq 0 2); [apply ena_of, enc_u16; exact IP|rewrite e16_length; reflexivity|].
  apply (ena_seq 2 0); [apply ena_of, enc_u16; exact RP|rewrite e16_length; reflexivity|].
  apply (ena_seq 0 2); [apply ena_of, enc_u16; lia|rewrite e16_length; reflexivity|].
  apply (ena_seq 2 ((2 + Z.of_nat (length (d_name a))) mod 4)); [apply ena_of, enc_mem|reflexivity|].
  apply (ena_seq _ 0).
  { apply ena_align; [exact F|unfold pad_to; lia|]. rewrite Zplus_mod_idemp_l. unfold pad_to.
    replace (2 + Z.of_nat (length (d_name a)) + Z.of_nat (up4 (66 + length (d_name a)) - (66 + length (d_name a)))) with (Z.of_nat (up4 (66 + length (d_name a))) + (-16) * 4) by lia.
    rewrite Z.mod_add by lia. exact U3. }
  { rewrite repeat_length, Zplus_mod_idemp_l. unfold pad_to.
    replace (2 + Z.of_nat (length (d_name a)) + Z.of_nat (up4 (66 + length (d_name a)) - (66 + length (d_name a)))) with (Z.of_nat (up4 (66 + length (d_name a))) + (-16) * 4) by lia.
    rewrite Z.mod_add by lia. exact U3. }
  apply (ena_seq 0 2); [apply ena_of, enc_u16; lia|rewrite e16_length; reflexivity|].
  apply (ena_seq 2 0); [apply ena_align; [exact F|lia|reflexivity]|reflexivity|].
  apply (ena_seq 0 2); [apply ena_of, enc_u16; lia|rewrite e16_length; reflexivity|].
  apply (ena_seq 2 0); [apply ena_align; [exact F|lia|reflexivity]|reflexivity|].
  apply (ena_seq 0 0).
  { apply ena_each; [|lia]. intros x I. rewrite Forall_forall in RL. split; [apply ena_of, enc_rel, RL; exact I|rewrite e_rel_length; reflexivity]. }
  { rewrite (flat_len _ _ 12) by apply e_rel_length. rewrite Z.add_0_l, Nat2Z.inj_mul. replace (Z.of_nat 12 * Z.of_nat (length (d_rels a))) with (3 * Z.of_nat (length (d_rels a)) * 4) by lia. apply Z.mod_mul. lia. }
  apply (ena_seq 0 2); [apply ena_of, enc_u16; lia|rewrite e16_length; reflexivity|].
  apply (ena_seq 2 0); [apply ena_align; [exact F|lia|reflexivity]|reflexivity|].
  apply (ena_seq 0 0).
  { apply ena_each; [|lia]. intros x I. rewrite Forall_forall in AP. split; [apply ena_of, enc_u32, AP; exact I|rewrite e32_length; reflexivity]. }
  { rewrite (flat_len _ _ 4) by apply e32_length. rewrite Z.add_0_l, Nat2Z.inj_mul, Z.mul_comm. apply Z.mod_mul. lia. }
  rewrite u16_id by lia. apply ena_further; [exact F|unfold u16_ok; lia].
Qed.

Lemma dec_pad : forall be n, dec be be (pad4 n) (repeat 0 (pad_to n)) (repeat 0 (pad_to n)).
Proof. intros be n. unfold pad4. apply dec_raw_n. rewrite repeat_length. reflexivity. Qed.
Lemma dec_rel : forall be r, rel_ok r -> dec be be get_rel (e_rel be r) (l_class r, l_type r, l_frame r, 0, rel_status r, 0).
Proof.
  intros be r (A & B & C & D & E). unfold get_rel, e_rel, u16_ok in *. eapply dec_bind; [apply dec_u32; lia|]. eapply dec_bind; [apply dec_u16; exact B|]. eapply dec_bind; [apply dec_u16; exact C|].
  eapply dec_bind; [apply dec_u16; lia|]. eapply dec_bind; [apply dec_byte|]. eapply dec_last; [apply dec_byte|]. rewrite Z.mod_small by lia. reflexivity.
Qed.
Lemma dec_entry : forall be a, ard_ok a -> Z.of_nat (entry_size a) < 65536 -> dec be be get_entry (e_entry be a) (told a).
Proof.
  intros be a (U & O & PR & T & A & R & L & IP & RP & NL & RL & AP & VN) SZ. unfold u16_ok in *. unfold entry_size in SZ. unfold get_entry, e_entry.
  eapply dec_bind; [apply dec_uuid; [exact U|reflexivity]|]. eapply dec_bind; [apply dec_uuid; [exact O|reflexivity]|]. eapply dec_bind; [apply dec_uuid; [exact nil_ok|reflexivity]|].
  eapply dec_bind; [apply dec_u32; apply props_word_range; exact PR|]. rewrite (props_back _ PR).
  eapply dec_bind; [apply dec_u16; exact T|]. eapply dec_bind; [apply dec_u16; exact A|]. eapply dec_bind; [apply dec_u16; exact R|]. eapply dec_bind; [apply dec_u16; exact L|].
  eapply dec_bind; [apply dec_u16; exact IP|]. eapply dec_bind; [apply dec_u16; exact RP|]. eapply dec_bind; [apply dec_u16; lia|]. rewrite Nat2Z.id.
  eapply dec_bind; [apply dec_raw|]. eapply dec_bind; [apply dec_pad|].
  eapply dec_bind; [apply dec_u16; lia|]. change (Z.to_nat 0) with 0%nat.
  apply (dec_bind _ _ be be be _ _ [] _ [] _ (dec_raw be [])). apply (dec_bind _ _ be be be _ _ (repeat 0 2) _ _ _ (dec_pad be 2)).
  eapply dec_bind; [apply dec_u16; lia|]. rewrite Nat2Z.id. eapply dec_bind; [apply (dec_pad be 2)|].
  eapply dec_bind; [apply (dec_list _ _ be get_rel (e_rel be) (fun r => (l_class r, l_type r, l_frame r, 0, rel_status r, 0)))|].
  { intros x I. rewrite Forall_forall in RL. apply dec_rel, RL. exact I. }
  eapply dec_bind; [apply dec_u16; lia|]. rewrite Nat2Z.id. eapply dec_bind; [apply (dec_pad be 2)|].
  eapply dec_bind; [apply (dec_list _ _ be get_u32 (e32 be) (fun x => x))|].
  { intros x I. rewrite Forall_forall in AP. apply dec_u32, AP. exact I. }
  eapply dec_bind; [apply dec_u16; lia|]. eapply dec_last; [apply (dec_pad be 2)|]. rewrite map_id. reflexivity.
Qed.

(** * The record *)

Definition e_record (be : bool) (l : list ard) : list Z := e16 be (Z.of_nat (length l)) ++ flat_map (e_entry be) l.
Definition e_head (be : bool) (n : Z) : list Z := e16 be 24 ++ e16 be n ++ [1; 1].
Lemma e_head_length : forall be n, length (e_head be n) = 6%nat.
Proof. intros be n. unfold e_head. rewrite !app_length, !e16_length. reflexivity. Qed.
Definition record_size (l : list ard) : nat := (8 + list_sum (map entry_size l))%nat.
Lemma e_record_length : forall be l, Forall ard_ok l -> length (e_record be l) = (record_size l - 6)%nat.
Proof.
  intros be l F. unfold e_record, record_size. rewrite app_length, e16_length. replace (length (flat_map (e_entry be) l)) with (list_sum (map entry_size l)); [lia|].
  induction F as [|a l (U & O & _) F IH]; [reflexivity|]. cbn [map flat_map list_sum fold_right]. rewrite app_length, (e_entry_length be a U O), <- IH. reflexivity.
Qed.
Lemma size_in : forall l a, In a l -> (entry_size a <= list_sum (map entry_size l))%nat.
Proof. intros l a. induction l as [|x l IH]; intros []; cbn [map list_sum fold_right]; [subst; lia|]. specialize (IH H). unfold list_sum in IH. lia. Qed.
Lemma length_size : forall l, (4 * length l <= list_sum (map entry_size l))%nat.
Proof. induction l as [|x l IH]; cbn [map list_sum fold_right length]; [lia|]. unfold entry_size at 1. unfold list_sum in IH. pose proof (up4_spec (66 + length (d_name x))). lia. Qed.
Lemma listed_conns : forall t, Forall (fun a => u_d1 (d_uuid a) <> 0 /\ u_d1 (d_obj a) <> 0) (conns t) -> filter is_listed (map slot t) = conns t.
Proof.
  unfold conns. induction t as [|[a|] t IH]; intros F; [reflexivity| |exact (IH F)]. cbn [map slot filter flat_map app] in *. inversion F as [|y l (A & B) F']; subst.
  unfold is_listed at 1. destruct (Z.eqb_spec (u_d1 (d_uuid a)) 0); [contradiction|]. destruct (Z.eqb_spec (u_d1 (d_obj a)) 0); [contradiction|]. cbn [negb andb]. f_equal. exact (IH F').
Qed.
Lemma each_const : forall A (f : writer) (l : list A) (g : ard -> writer) a, f = g a -> each (fun _ : A => f) l = each g (repeat a (length l)).
Proof. intros A f l g a ->. induction l as [|x l IH]; [reflexivity|]. cbn [each length repeat]. rewrite IH. reflexivity. Qed.

Lemma ena_record : forall fuel be t scope l, (3 <= fuel)%nat -> l <> [] -> Forall ard_ok l -> Z.of_nat (record_size l) < 65536 ->
  match scope with
  | None => filter is_listed (map slot t) = l
  | Some (a, i) => l = repeat a (length (filter (fun x => x =? i) (d_apis a))) /\ forall x, In x (d_apis a) -> x = i
  end ->
  ena 0 (put_ar_data fuel be t scope) (e_head be (Z.of_nat (record_size l - 4)) ++ e_record be l).
Proof.
  intros fuel be t scope l F NE OK SZ SC b len pos P Q L M N.
  assert (LR : length (e_record be l) = (record_size l - 6)%nat) by (apply e_record_length; exact OK).
  assert (LH : forall n, length (e_head be n) = 6%nat) by (intros n; unfold e_head; rewrite !app_length, !e16_length; reflexivity).
  assert (R8 : (8 <= record_size l)%nat) by (unfold record_size; lia).
  rewrite app_length, LH, LR in L.
  pose proof (length_size l) as LS. assert (NL : (0 < length l)%nat) by (destruct l; [contradiction|cbn; lia]).
  set (body := fun only : option Z => put_u16 be (Z.of_nat (length l)) ;; each (put_one_ar fuel be only) l).
  assert (EB : forall only, (forall a, In a l -> forall i, only = Some i -> forall x, In x (d_apis a) -> x = i) -> ena 2 (body only) (e_record be l)).
  { intros only FO. unfold body, e_record. apply (ena_seq 2 0); [apply ena_of, enc_u16; unfold record_size in SZ; lia|rewrite e16_length; reflexivity|]. apply ena_each; [|lia]. intros a I.
    rewrite Forall_forall in OK. pose proof (size_in l a I) as SI. unfold record_size in SZ. split; [apply ena_entry; [exact F|apply OK; exact I|lia|exact (FO a I)]|].
    destruct (OK a I) as (U & O & _). rewrite (e_entry_length be a U O). apply entry_four. }
  unfold put_ar_data. cbn [w_pos].
  assert (EH : enc (put_block_header be 24 0 1 1) (e_head be (0 + 2))) by (apply enc_header; unfold byte; lia).
  rewrite EH by (rewrite ?LH; lia). cbn [obind]. rewrite LH.
  assert (LB : length (put_at b (Z.to_nat pos) (e_head be (0 + 2))) = length b) by (apply put_at_length; rewrite LH; lia).
  assert (STEP : exists w3,
     w3 = mkWr (Some (put_at b (Z.to_nat pos) (e_head be (0 + 2) ++ e_record be l))) len (pos + Z.of_nat (record_size l)) /\
     (do w2 <- (if (0 <? match scope with None => length (filter is_listed (map slot t)) | Some (a, i) => length (filter (fun x : Z => (x =? i)%Z) (d_apis a)) end)%nat
                then put_u16 be (u16 (Z.of_nat match scope with None => length (filter is_listed (map slot t)) | Some (a, i) => length (filter (fun x : Z => (x =? i)%Z) (d_apis a)) end)) else wskip)
               (mkWr (Some (put_at b (Z.to_nat pos) (e_head be (0 + 2)))) len (pos + Z.of_nat 6));
      match scope with
      | None => each (put_one_ar fuel be None) (filter is_listed (map slot t))
      | Some (a, i) => each (fun _ : Z => put_one_ar fuel be (Some i) a) (filter (fun x : Z => (x =? i)%Z) (d_apis a))
      end w2) = Ok w3).
  { eexists. split; [reflexivity|].
    assert (RUN : exists only, (forall a, In a l -> forall i, only = Some i -> forall x, In x (d_apis a) -> x = i) /\
      match scope with None => length (filter is_listed (map slot t)) | Some (a, i) => length (filter (fun x : Z => (x =? i)%Z) (d_apis a)) end = length l /\
      match scope with
      | None => each (put_one_ar fuel be None) (filter is_listed (map slot t))
      | Some (a, i) => each (fun _ : Z => put_one_ar fuel be (Some i) a) (filter (fun x : Z => (x =? i)%Z) (d_apis a))
      end = each (put_one_ar fuel be only) l).
    { destruct scope as [[a i]|].
      - destruct SC as (E & SC). exists (Some i). split; [|split].
        + intros a' I i' [= <-]. assert (a' = a) by (rewrite E in I; apply repeat_spec in I; exact I). subst a'. exact SC.
        + rewrite E, repeat_length. reflexivity.
        + rewrite E. apply each_const. reflexivity.
      - exists None. split; [intros; discriminate|]. rewrite SC. split; reflexivity. }
    destruct RUN as (only & FO & C1 & C2). rewrite C1, C2. destruct (Nat.ltb_spec 0 (length l)); [|lia]. rewrite u16_id by (unfold record_size in SZ; lia).
    pose proof (EB only FO (put_at b (Z.to_nat pos) (e_head be (0 + 2))) len (pos + Z.of_nat 6) ltac:(lia)) as X. unfold body, wseq in X.
    rewrite X; [|rewrite <- Zplus_mod_idemp_l, Q; reflexivity|lia|lia|exact N].
    replace (Z.to_nat (pos + Z.of_nat 6)) with (Z.to_nat pos + length (e_head be (0 + 2)))%nat by (rewrite LH; lia).
    rewrite put_at_app by (rewrite LH; lia). f_equal. f_equal. lia. }
  destruct STEP as (w3 & W3 & STEP).
  match goal with |- (do w2 <- ?A; do w3 <- @?B w2; _) = _ => assert (XX : (do w2 <- A; B w2) = Ok w3) by exact STEP; destruct A as [w2| |]; try discriminate XX; cbn [obind] in XX; cbn [obind]; rewrite XX end.
  cbn [obind]. rewrite W3. cbn [w_pos]. destruct (Z.ltb_spec (pos + Z.of_nat 6) (pos + Z.of_nat (record_size l))); [|lia].
  unfold put_block_len. cbn [w_pos w_buf w_len]. rewrite (u16_id (pos + 2)) by lia.
  replace (u16 (pos + Z.of_nat (record_size l) - (pos + 4))) with (Z.of_nat (record_size l - 4)) by (rewrite u16_id; lia).
  assert (E2 : enc (put_u16 be (Z.of_nat (record_size l - 4))) (e16 be (Z.of_nat (record_size l - 4)))) by (apply enc_u16; lia).
  rewrite E2; [|lia|rewrite e16_length; lia|rewrite put_at_length by (rewrite app_length, LH, LR; lia); lia|exact N]. cbn [obind w_buf w_len].
  unfold e_head. rewrite <- !app_assoc. replace (Z.to_nat (pos + 2)) with (Z.to_nat pos + length (e16 be 24))%nat by (rewrite e16_length; lia).
  rewrite put_at_over; [|rewrite !e16_length; reflexivity|rewrite !app_length, !e16_length, LR; cbn [length]; lia].
  f_equal. f_equal. rewrite !app_length, !e16_length, LR. cbn [length]. lia.
Qed.
Lemma dec_record : forall l, Forall ard_ok l -> Z.of_nat (record_size l) < 65536 ->
  dec true true get_ar_data (e_head true (Z.of_nat (record_size l - 4)) ++ e_record true l) (mkBhead 24 (Z.of_nat (record_size l - 4)) 1 1, map told l).
Proof.
  intros l OK SZ. unfold get_ar_data, e_head, e_record. eapply dec_bind; [apply dec_header; lia|]. eapply dec_last; [|reflexivity].
  pose proof (length_size l) as LS. unfold record_size in SZ. apply dec_counted; [lia|]. intros a I. rewrite Forall_forall in OK. apply dec_entry; [apply OK; exact I|]. pose proof (size_in l a I). lia.
Qed.
Lemma rt4_of : forall A put (get : reader A) x bs, ena 0 put bs -> dec true true get bs x -> round_trip4 put get x (length bs).
Proof.
  intros A put get x bs E D b len rlen pos P Q L N R RN. exists (put_at b (Z.to_nat pos) bs).
  assert (Lf : length (firstn (Z.to_nat pos) b) = Z.to_nat pos) by (rewrite firstn_length; lia).
  split; [apply E; lia|]. split; [apply put_at_length; lia|].
  split; [unfold put_at; rewrite firstn_app, Lf, Nat.sub_diag, firstn_all2 by lia; cbn [firstn]; apply app_nil_r|]. split.
  - unfold put_at. rewrite skipn_app, skipn_all2 by lia. rewrite Lf. cbn [app]. replace (Z.to_nat pos + length bs - Z.to_nat pos)%nat with (length bs) by lia.
    rewrite skipn_app, skipn_all, Nat.sub_diag. reflexivity.
  - pose proof (D (firstn (Z.to_nat pos) b) (skipn (Z.to_nat pos + length bs) b) rlen) as K. rewrite !app_length, skipn_length, Lf in K.
    replace (Z.of_nat (Z.to_nat pos)) with pos in K by lia. replace (Z.of_nat (Z.to_nat pos + length bs)) with (pos + Z.of_nat (length bs)) in K by lia. apply K; lia.
Qed.

(** C122: read by its index, the record tells of every connection of the device, in the order of
    the table, if the identifiers of the connections and controllers do not start with 0: its
    controller, properties, types, references, ports, name, relations with their data status,
    and APIs.  Nothing outside the record is written. *)
Theorem C122_device : forall fuel t me api, (3 <= fuel)%nat -> Forall ard_ok (conns t) -> conns t <> [] -> Z.of_nat (record_size (conns t)) < 65536 ->
  Forall (fun a => u_d1 (d_uuid a) <> 0 /\ u_d1 (d_obj a) <> 0) (conns t) ->
  let n := record_size (conns t) in
  round_trip4 (read_ar_data fuel t 63520 me api) get_ar_data (mkBhead 24 (Z.of_nat (n - 4)) 1 1, map told (conns t)) n /\
  round_trip4 (read_ar_data fuel t 61472 None api) get_ar_data (mkBhead 24 (Z.of_nat (n - 4)) 1 1, map told (conns t)) n.
Proof.
  intros fuel t me api F OK NE SZ ID n. unfold read_ar_data. cbn [Z.eqb Pos.eqb].
  assert (R : round_trip4 (put_ar_data fuel true t None) get_ar_data (mkBhead 24 (Z.of_nat (n - 4)) 1 1, map told (conns t)) n); [|split; exact R].
  pose proof (rt4_of _ _ _ _ _ (ena_record fuel true t None (conns t) F NE OK SZ (listed_conns t ID)) (dec_record (conns t) OK SZ)) as R.
  rewrite app_length, (e_record_length true (conns t) OK) in R. rewrite e_head_length in R.
  replace (6 + (record_size (conns t) - 6))%nat with n in R by (unfold n, record_size; lia). exact R.
Qed.
Print Assumptions C122_device.

(** C122: read over a connection all of whose submodules belong to one API, for this API, the
    record tells of this connection, once for each time the API is listed. *)
Theorem C122_api_partial : forall fuel t a api, (3 <= fuel)%nat -> ard_ok a -> d_apis a <> [] -> (forall i, In i (d_apis a) -> i = api) ->
  let l := repeat a (length (d_apis a)) in let n := record_size l in
  Z.of_nat n < 65536 ->
  round_trip4 (read_ar_data fuel t 61472 (Some a) api) get_ar_data (mkBhead 24 (Z.of_nat (n - 4)) 1 1, map told l) n.
Proof.
  intros fuel t a api F OK NE ALL l n SZ. unfold read_ar_data. cbn [Z.eqb Pos.eqb].
  assert (FL : filter (fun x => x =? api) (d_apis a) = d_apis a).
  { destruct OK as (_ & _ & _ & _ & _ & _ & _ & _ & _ & _ & _ & AP & _). apply (api_count _ _ AP). intros x I. apply ALL. exact I. }
  assert (OKL : Forall ard_ok l) by (apply Forall_forall; intros x I; apply repeat_spec in I; subst; exact OK).
  assert (NL : l <> []) by (unfold l; destruct (d_apis a); [contradiction|discriminate]).
  assert (SC : l = repeat a (length (filter (fun x : Z => (x =? api)%Z) (d_apis a))) /\ forall x, In x (d_apis a) -> x = api) by (rewrite FL; split; [reflexivity|exact ALL]).
  pose proof (rt4_of _ _ _ _ _ (ena_record fuel true t (Some (a, api)) l F NL OKL SZ SC) (dec_record l OKL SZ)) as R.
  rewrite app_length, (e_record_length true l OKL) in R. rewrite e_head_length in R.
  replace (6 + (record_size l - 6))%nat with n in R by (unfold n, record_size; lia). exact R.
Qed.
Print Assumptions C122_api_partial.

(** * Responses that are too small *)

Definition fills (f : writer) (n : Z) : Prop :=
  forall b len pos, 0 <= pos <= len -> len <= Z.of_nat (length b) -> len < 65536 -> exists b', f (mkWr (Some b) len pos) = Ok (mkWr (Some b') len (Z.min len (pos + n))) /\ length b' = length b.
Lemma fills_seq : forall f g m n, 0 <= m -> 0 <= n -> fills f m -> fills g n -> fills (f ;; g) (m + n).
Proof. intros f g m n M N F G. exact (bytes_seq f g m n M N F G). Qed.
Lemma fills_u16 : forall be v, fills (put_u16 be v) 2.
Proof. intros be v. exact (u16_at be v). Qed.
Lemma fills_byte : forall v, fills (put_byte v) 1.
Proof. intros v. exact (byte_at v). Qed.
Lemma fills_u32 : forall be v, fills (put_u32 be v) 4.
Proof.
  intros be v. unfold put_u32. destruct be; apply (fills_seq _ _ 1 3); try lia; try apply fills_byte; apply (fills_seq _ _ 1 2); try lia; try apply fills_byte; apply (fills_seq _ _ 1 1); try lia; apply fills_byte.
Qed.
Lemma fills_rel : forall be r, fills (put_iocr be r) 12.
Proof.
  intros be r. unfold put_iocr. apply (fills_seq _ _ 4 8); try lia; [apply fills_u32|]. apply (fills_seq _ _ 2 6); try lia; [apply fills_u16|]. apply (fills_seq _ _ 2 4); try lia; [apply fills_u16|].
  apply (fills_seq _ _ 2 2); try lia; [apply fills_u16|]. apply (fills_seq _ _ 1 1); try lia; apply fills_byte.
Qed.
Lemma fills_each : forall A (f : A -> writer) n l, 0 <= n -> (forall x, fills (f x) n) -> fills (each f l) (n * Z.of_nat (length l)).
Proof.
  intros A f n l N H. induction l as [|x l IH].
  - intros b len pos P L M. exists b. split; [|reflexivity]. cbn [each length]. unfold wskip. f_equal. f_equal. lia.
  - cbn [each length]. replace (n * Z.of_nat (S (length l))) with (n + n * Z.of_nat (length l)) by lia. apply fills_seq; [lia|nia|apply H|exact IH].
Qed.
(** Full: at the end of a response that does not end at a multiple of four; cut: from an offset
    [k], with less than [n] bytes of room.  The writer does not end, or ([s] is false) fills the
    response. *)
Definition ends (s : bool) (len : Z) (m : nat) (o : outcome wr) : Prop := o = AssertFail \/ (s = false /\ exists b', o = Ok (mkWr (Some b') len len) /\ length b' = m).
Definition full (s : bool) (f : writer) : Prop := forall b len, 0 <= len <= Z.of_nat (length b) -> len < 65536 -> len mod 4 <> 0 -> ends s len (length b) (f (mkWr (Some b) len len)).
Definition cut (s : bool) (k : Z) (f : writer) (n : Z) : Prop :=
  forall b len pos, 0 <= pos <= len -> len <= Z.of_nat (length b) -> len < 65536 -> len mod 4 <> 0 -> pos mod 4 = k -> len - pos < n -> ends s len (length b) (f (mkWr (Some b) len pos)).
Lemma full_fills : forall f n, 0 <= n -> fills f n -> full false f.
Proof.
  intros f n N H b len L M Q. right. split; [reflexivity|]. destruct (H b len len ltac:(lia) ltac:(lia) M) as (b' & E & LB). exists b'. rewrite E. split; [|exact LB]. f_equal. f_equal. lia.
Qed.
Lemma cut_fills : forall k f n, fills f n -> cut false k f n.
Proof.
  intros k f n H b len pos P L M Q K R. right. split; [reflexivity|]. destruct (H b len pos P L M) as (b' & E & LB). exists b'. rewrite E. split; [|exact LB]. f_equal. f_equal. lia.
Qed.
Lemma never : forall fuel b len pos, 0 <= pos <= len -> len <= Z.of_nat (length b) -> len < 65536 -> (forall p, pos <= p <= len -> p mod 4 <> 0) -> align fuel 0 (mkWr (Some b) len pos) = AssertFail.
Proof. intros fuel b len pos P L M H. unfold align. rewrite C46_no_room_never_ends; [reflexivity|lia|lia|lia|lia|lia|]. intros p I. rewrite Z.sub_0_r. apply H. exact I. Qed.
Lemma full_align : forall fuel, full true (align fuel 0).
Proof. intros fuel b len L M Q. left. apply never; try lia. intros p I. replace p with len by lia. exact Q. Qed.
Lemma cut_align : forall fuel, cut true 2 (align fuel 0) 2.
Proof.
  intros fuel b len pos P L M Q K R. left. apply never; try lia. intros p I. assert (p = pos \/ p = pos + 1) as [->| ->] by lia; [lia|]. rewrite Z.add_mod, K by lia. discriminate.
Qed.
Lemma ends_weak : forall s len m o, ends s len m o -> ends false len m o.
Proof. intros s len m o [E|(_ & E)]; [left; exact E|right; split; [reflexivity|exact E]]. Qed.
Lemma full_seq : forall s f g, full false f -> full s g -> full s (f ;; g).
Proof.
  intros s f g F G b len L M Q. unfold wseq. destruct (F b len L M Q) as [E|(_ & b1 & E & LB)]; rewrite E; cbn [obind]; [left; reflexivity|]. rewrite <- LB. apply G; try lia; exact Q.
Qed.
Lemma cut_seq : forall s k k' f g x n, ena k f x -> (k + Z.of_nat (length x)) mod 4 = k' -> cut false k f (Z.of_nat (length x)) -> cut s k' g n -> full s g -> cut s k (f ;; g) (Z.of_nat (length x) + n).
Proof.
  intros s k k' f g x n EN KK CF CG FG b len pos P L M Q K R. unfold wseq. destruct (Z_lt_ge_dec (len - pos) (Z.of_nat (length x))) as [H|H].
  - destruct (CF b len pos P L M Q K H) as [E|(_ & b1 & E & LB)]; rewrite E; cbn [obind]; [left; reflexivity|]. rewrite <- LB. apply FG; try lia; exact Q.
  - rewrite EN by (try assumption; lia). cbn [obind]. rewrite <- (put_at_length b (Z.to_nat pos) x) by lia. apply CG; rewrite ?put_at_length by lia; try assumption; try lia.
    rewrite <- KK, <- K, Zplus_mod_idemp_l. reflexivity.
Qed.
(** What follows a writer that never ends is never reached. *)
Lemma cut_then : forall k f n, cut true k f n -> forall g, cut true k (fun w => obind (f w) g) n.
Proof. intros k f n H g b len pos P L M Q K R. destruct (H b len pos P L M Q K R) as [E|(C & _)]; [|discriminate]. left. rewrite E. reflexivity. Qed.
Lemma full_then : forall f, full true f -> forall g, full true (fun w => obind (f w) g).
Proof. intros f H g b len L M Q. destruct (H b len L M Q) as [E|(C & _)]; [|discriminate]. left. rewrite E. reflexivity. Qed.
Lemma weak_cut : forall s k f n, cut s k f n -> cut false k f n.
Proof. intros s k f n H b len pos P L M Q K R. apply (ends_weak s). apply H; assumption. Qed.
Lemma weak_full : forall s f, full s f -> full false f.
Proof. intros s f H b len L M Q. apply (ends_weak s). apply H; assumption. Qed.

Lemma full_pair : forall fuel be v, full true (put_u16 be v ;; align fuel 0).
Proof. intros. apply full_seq; [apply (full_fills _ 2); [lia|apply fills_u16]|apply full_align]. Qed.
Lemma cut_pair : forall fuel be v, u16_ok v -> cut true 0 (put_u16 be v ;; align fuel 0) 4.
Proof.
  intros fuel be v U. pose proof (cut_seq true 0 2 (put_u16 be v) (align fuel 0) (e16 be v) 2) as H. rewrite e16_length in H. change (Z.of_nat 2 + 2) with 4 in H. apply H.
  - apply ena_of, enc_u16. exact U.
  - reflexivity.
  - apply cut_fills, fills_u16.
  - apply cut_align.
  - apply full_align.
Qed.
Lemma ena_pair : forall fuel be v, (3 <= fuel)%nat -> u16_ok v -> ena 0 (put_u16 be v ;; align fuel 0) (e16 be v ++ repeat 0 2).
Proof. intros fuel be v F U. apply (ena_seq 0 2); [apply ena_of, enc_u16; exact U|rewrite e16_length; reflexivity|]. apply ena_align; [exact F|lia|reflexivity]. Qed.
Lemma cut_further : forall fuel be n, cut true 0 (put_further fuel be n) 4.
Proof.
  intros fuel be n b len pos P L M Q K R. left. unfold put_further.
  destruct (cut_pair fuel be 0 ltac:(unfold u16_ok; lia) b len pos P L M Q K R) as [E|(C & _)]; [|discriminate]. rewrite E. reflexivity.
Qed.
Lemma full_further : forall fuel be n, full true (put_further fuel be n).
Proof. intros fuel be n b len L M Q. left. unfold put_further. destruct (full_pair fuel be 0 b len L M Q) as [E|(C & _)]; [|discriminate]. rewrite E. reflexivity. Qed.
Definition put_tail (fuel : nat) (be : bool) (a : ard) : writer :=
  (put_u16 be 0 ;; align fuel 0) ;; (put_u16 be (Z.of_nat (length (d_rels a))) ;; align fuel 0) ;; each (put_iocr be) (d_rels a) ;;
  (put_u16 be (Z.of_nat (length (d_apis a))) ;; align fuel 0) ;; each (put_u32 be) (d_apis a) ;; put_further fuel be (u16 (2 * Z.of_nat (d_vendors a))).
Lemma cut_tail : forall fuel be a, (3 <= fuel)%nat -> ard_ok a -> Z.of_nat (entry_size a) < 65536 ->
  cut true 0 (put_tail fuel be a) (16 + 12 * Z.of_nat (length (d_rels a)) + 4 * Z.of_nat (length (d_apis a))).
Proof.
  intros fuel be a F (U & O & PR & T & A & R & L & IP & RP & NL & RL & AP & VN) SZ. unfold entry_size in SZ. unfold put_tail.
  assert (P4 : forall v, length (e16 be v ++ repeat 0 2) = 4%nat) by (intros; rewrite app_length, e16_length; reflexivity).
  assert (C5 : cut true 0 (each (put_u32 be) (d_apis a) ;; put_further fuel be (u16 (2 * Z.of_nat (d_vendors a)))) (4 * Z.of_nat (length (d_apis a)) + 4)).
  { pose proof (cut_seq true 0 0 (each (put_u32 be) (d_apis a)) (put_further fuel be (u16 (2 * Z.of_nat (d_vendors a)))) (flat_map (e32 be) (d_apis a)) 4) as H.
    rewrite (flat_len _ _ 4) in H by apply e32_length. rewrite Nat2Z.inj_mul in H. apply H.
    - apply ena_of, enc_each. intros x I. rewrite Forall_forall in AP. apply enc_u32, AP. exact I.
    - rewrite Z.add_0_l, Z.mul_comm. apply Z.mod_mul. lia.
    - apply cut_fills. apply fills_each; [lia|intros; apply fills_u32].
    - apply cut_further.
    - apply full_further. }
  assert (F5 : full true (each (put_u32 be) (d_apis a) ;; put_further fuel be (u16 (2 * Z.of_nat (d_vendors a))))).
  { apply full_seq; [|apply full_further]. apply (full_fills _ (4 * Z.of_nat (length (d_apis a)))); [lia|]. apply fills_each; [lia|intros; apply fills_u32]. }
  match type of C5 with cut _ _ ?f _ => set (t5 := f) in * end.
  assert (C4 : cut true 0 ((put_u16 be (Z.of_nat (length (d_apis a))) ;; align fuel 0) ;; t5) (4 + (4 * Z.of_nat (length (d_apis a)) + 4))).
  { pose proof (cut_seq true 0 0 _ t5 _ (4 * Z.of_nat (length (d_apis a)) + 4) (ena_pair fuel be (Z.of_nat (length (d_apis a))) F ltac:(unfold u16_ok; lia))) as H. rewrite P4 in H. apply H.
    - reflexivity.
    - apply (weak_cut true), cut_pair. unfold u16_ok. lia.
    - exact C5.
    - exact F5. }
  assert (F4 : full true ((put_u16 be (Z.of_nat (length (d_apis a))) ;; align fuel 0) ;; t5)) by (apply full_seq; [apply (weak_full true), full_pair|exact F5]).
  match type of C4 with cut _ _ ?f _ => set (t4 := f) in * end.
  assert (C3 : cut true 0 (each (put_iocr be) (d_rels a) ;; t4) (12 * Z.of_nat (length (d_rels a)) + (4 + (4 * Z.of_nat (length (d_apis a)) + 4)))).
  { pose proof (cut_seq true 0 0 (each (put_iocr be) (d_rels a)) t4 (flat_map (e_rel be) (d_rels a)) (4 + (4 * Z.of_nat (length (d_apis a)) + 4))) as H.
    rewrite (flat_len _ _ 12) in H by apply e_rel_length. rewrite Nat2Z.inj_mul in H. apply H.
    - apply ena_of, enc_each. intros x I. rewrite Forall_forall in RL. apply enc_rel, RL. exact I.
    - rewrite Z.add_0_l. replace (Z.of_nat 12 * Z.of_nat (length (d_rels a))) with (3 * Z.of_nat (length (d_rels a)) * 4) by lia. apply Z.mod_mul. lia.
    - apply cut_fills. apply fills_each; [lia|intros; apply fills_rel].
    - exact C4.
    - exact F4. }
  assert (F3 : full true (each (put_iocr be) (d_rels a) ;; t4)).
  { apply full_seq; [|exact F4]. apply (full_fills _ (12 * Z.of_nat (length (d_rels a)))); [lia|]. apply fills_each; [lia|intros; apply fills_rel]. }
  match type of C3 with cut _ _ ?f _ => set (t3 := f) in * end.
  assert (C2 : cut true 0 ((put_u16 be (Z.of_nat (length (d_rels a))) ;; align fuel 0) ;; t3) (4 + (12 * Z.of_nat (length (d_rels a)) + (4 + (4 * Z.of_nat (length (d_apis a)) + 4))))).
  { pose proof (cut_seq true 0 0 _ t3 _ (12 * Z.of_nat (length (d_rels a)) + (4 + (4 * Z.of_nat (length (d_apis a)) + 4))) (ena_pair fuel be (Z.of_nat (length (d_rels a))) F ltac:(unfold u16_ok; lia))) as H. rewrite P4 in H. apply H.
    - reflexivity.
    - apply (weak_cut true), cut_pair. unfold u16_ok. lia.
    - exact C3.
    - exact F3. }
  assert (F2 : full true ((put_u16 be (Z.of_nat (length (d_rels a))) ;; align fuel 0) ;; t3)) by (apply full_seq; [apply (weak_full true), full_pair|exact F3]).
  match type of C2 with cut _ _ ?f _ => set (t2 := f) in * end.
  pose proof (cut_seq true 0 0 _ t2 _ (4 + (12 * Z.of_nat (length (d_rels a)) + (4 + (4 * Z.of_nat (length (d_apis a)) + 4)))) (ena_pair fuel be 0 F ltac:(unfold u16_ok; lia))) as H. rewrite P4 in H.
  replace (16 + 12 * Z.of_nat (length (d_rels a)) + 4 * Z.of_nat (length (d_apis a))) with (Z.of_nat 4 + (4 + (12 * Z.of_nat (length (d_rels a)) + (4 + (4 * Z.of_nat (length (d_apis a)) + 4))))) by lia. apply H.
  - reflexivity.
  - apply (weak_cut true), cut_pair. unfold u16_ok. lia.
  - exact C2.
  - exact F2.
Qed.

Lemma wseq_assoc : forall f g h w, ((f ;; g) ;; h) w = (f ;; (g ;; h)) w.
Proof. intros f g h w. unfold wseq. destruct (f w); reflexivity. Qed.
(** The entry up to the padding behind the name, then the rest. *)
Definition put_front (fuel : nat) (be : bool) (a : ard) : writer :=
  put_uuid be (d_uuid a) ;; put_uuid be (d_obj a) ;; put_uuid be nil_uuid ;; put_u32 be (props_word (d_props a)) ;; put_u16 be (d_type a) ;;
  put_u16 be (d_alarm a) ;; put_u16 be (d_remote a) ;; put_u16 be (d_local a) ;; put_u16 be (d_iport a) ;; put_u16 be (d_rport a) ;;
  put_u16 be (Z.of_nat (length (d_name a))) ;; put_mem (d_name a) ;; align fuel 0.
Definition e_front (be : bool) (a : ard) : list Z :=
  euuid be (d_uuid a) ++ euuid be (d_obj a) ++ euuid be nil_uuid ++ e32 be (props_word (d_props a)) ++ e16 be (d_type a) ++
  e16 be (d_alarm a) ++ e16 be (d_remote a) ++ e16 be (d_local a) ++ e16 be (d_iport a) ++ e16 be (d_rport a) ++
  e16 be (Z.of_nat (length (d_name a))) ++ d_name a ++ repeat 0 (pad_to (66 + length (d_name a))).
Lemma seq_congr : forall f g g' w, (forall w, g w = g' w) -> (f ;; g) w = (f ;; g') w.
Proof. intros f g g' w H. unfold wseq. destruct (f w); cbn [obind]; [apply H|reflexivity|reflexivity]. Qed.
Lemma one_split : forall fuel be a w, put_one_ar fuel be None a w = (put_front fuel be a ;; put_tail fuel be a) w.
Proof.
  intros fuel be a w. unfold put_one_ar, put_front. do 12 (rewrite wseq_assoc; apply seq_congr; clear w; intros w). apply seq_congr. clear w. intros w.
  unfold put_tail. do 2 (rewrite wseq_assoc; apply seq_congr; clear w; intros w; apply seq_congr; clear w; intros w). apply seq_congr. clear w. intros w.
  rewrite wseq_assoc. reflexivity.
Qed.
Lemma ena_ext : forall k f g bs, (forall w, f w = g w) -> ena k g bs -> ena k f bs.
Proof. intros k f g bs H E b len pos A Q B C D. rewrite H. apply E; assumption. Qed.
Lemma ena_front : forall fuel be a, (3 <= fuel)%nat -> ard_ok a -> ena 0 (put_front fuel be a) (e_front be a).
Proof.
  intros fuel be a F (U & O & PR & T & A & R & L & IP & RP & NL & RL & AP & VN). unfold u16_ok in *. unfold put_front, e_front. pose proof (up4_spec (66 + length (d_name a))) as (U1 & U2 & U3).
  apply (ena_seq 0 0); [apply ena_of, enc_uuid; exact U|rewrite (euuid_length be _ U); reflexivity|].
  apply (ena_seq 0 0); [apply ena_of, enc_uuid; exact O|rewrite (euuid_length be _ O); reflexivity|].
  apply (ena_seq 0 0); [apply ena_of, enc_uuid; exact nil_ok|rewrite (euuid_length be _ nil_ok); reflexivity|].
  apply (ena_seq 0 0); [apply ena_of, enc_u32; apply props_word_range; exact PR|rewrite e32_length; reflexivity|].
  apply (ena_seq 0 2); [apply ena_of, enc_u16; exact T|rewrite e16_length; reflexivity|].
  apply (ena_seq 2 0); [apply ena_of, enc_u16; exact A|rewrite e16_length; reflexivity|].
  apply (ena_seq 0 2); [apply ena_of, enc_u16; exact R|rewrite e16_length; reflexivity|].
  apply (ena_seq 2 0); [apply ena_of, enc_u16; exact L|rewrite e16_length; reflexivity|].
  apply (ena_seq 0 2); [apply ena_of, enc_u16; exact IP|rewrite e16_length; reflexivity|].
  apply (ena_seq 2 0); [apply ena_of, enc_u16; exact RP|rewrite e16_length; reflexivity|].
  apply (ena_seq 0 2); [apply ena_of, enc_u16; lia|rewrite e16_length; reflexivity|].
  apply (ena_seq 2 ((2 + Z.of_nat (length (d_name a))) mod 4)); [apply ena_of, enc_mem|reflexivity|].
  apply ena_align; [exact F|unfold pad_to; lia|]. rewrite Zplus_mod_idemp_l. unfold pad_to.
  replace (2 + Z.of_nat (length (d_name a)) + Z.of_nat (up4 (66 + length (d_name a)) - (66 + length (d_name a)))) with (Z.of_nat (up4 (66 + length (d_name a))) + (-16) * 4) by lia.
  rewrite Z.mod_add by lia. exact U3.
Qed.
Lemma e_front_length : forall be a, ard_ok a -> length (e_front be a) = up4 (66 + length (d_name a)).
Proof.
  intros be a (U & O & _). unfold e_front. rewrite !app_length, repeat_length, !(euuid_length be) by (try assumption; exact nil_ok). rewrite !e16_length, e32_length.
  unfold pad_to. pose proof (up4_spec (66 + length (d_name a))) as (A & B & _). lia.
Qed.
Lemma entry_hangs : forall fuel be a b len pos, (3 <= fuel)%nat -> ard_ok a -> Z.of_nat (entry_size a) < 65536 -> 0 <= pos -> pos mod 4 = 0 -> len mod 4 <> 0 ->
  pos + Z.of_nat (up4 (66 + length (d_name a))) <= len < pos + Z.of_nat (entry_size a) -> len <= Z.of_nat (length b) -> len < 65536 ->
  put_one_ar fuel be None a (mkWr (Some b) len pos) = AssertFail.
Proof.
  intros fuel be a b len pos F OK SZ P Q LQ R M N. rewrite one_split. unfold wseq. pose proof (e_front_length be a OK) as LF.
  rewrite (ena_front fuel be a F OK) by (rewrite ?LF; try assumption; lia). cbn [obind]. rewrite LF. destruct (up4_spec (66 + length (d_name a))) as (U1 & U2 & U3).
  destruct (cut_tail fuel be a F OK SZ (put_at b (Z.to_nat pos) (e_front be a)) len (pos + Z.of_nat (up4 (66 + length (d_name a))))) as [E|(C & _)].
  - lia.
  - rewrite put_at_length by (rewrite LF; lia). lia.
  - exact N.
  - exact LQ.
  - rewrite Z.add_mod, Q, U3 by lia. reflexivity.
  - unfold entry_size in R. lia.
  - exact E.
  - discriminate.
Qed.
Lemma each_app : forall A (f : A -> writer) l1 l2 w, each f (l1 ++ l2) w = (each f l1 ;; each f l2) w.
Proof. intros A f l1 l2. induction l1 as [|x l1 IH]; intros w; [reflexivity|]. cbn [app each]. rewrite wseq_assoc. apply seq_congr. exact IH. Qed.

(** C122: a response that is too small for the record.  If it ends behind the name in the entry
    of some connection, and not at a multiple of four, then the read never ends: a reader can
    stop the device by the size of the response it asks for, without a connection of its
    own. *)
Theorem C122_hang_refuted : forall fuel t me api l1 a l2 b len pos, (3 <= fuel)%nat -> conns t = l1 ++ a :: l2 -> Forall ard_ok (conns t) ->
  Z.of_nat (record_size (conns t)) < 65536 -> Forall (fun a => u_d1 (d_uuid a) <> 0 /\ u_d1 (d_obj a) <> 0) (conns t) ->
  0 <= pos -> pos mod 4 = 0 -> len <= Z.of_nat (length b) -> len < 65536 ->
  pos + Z.of_nat (record_size l1 + up4 (66 + length (d_name a))) <= len < pos + Z.of_nat (record_size l1 + entry_size a) -> len mod 4 <> 0 ->
  read_ar_data fuel t 63520 me api (mkWr (Some b) len pos) = AssertFail.
Proof.
  intros fuel t me api l1 a l2 b len pos F SP OK SZ ID P Q M N R LQ. unfold read_ar_data. cbn [Z.eqb Pos.eqb]. unfold put_ar_data. rewrite (listed_conns t ID). rewrite SP in *.
  apply Forall_app in OK. destruct OK as (OK1 & OK2). inversion OK2 as [|x y OKA OK3]; subst x y. clear OK2 OK3.
  unfold record_size in *. rewrite map_app, list_sum_app in SZ. cbn [map list_sum fold_right] in SZ.
  pose proof (length_size l1) as S1. pose proof (length_size l2) as S2. unfold list_sum at 1 in S2. destruct (up4_spec (66 + length (d_name a))) as (U1 & U2 & U3).
  assert (LA : Z.of_nat (length (l1 ++ a :: l2)) < 65536) by (rewrite app_length; cbn [length]; lia).
  assert (LP : (0 < length (l1 ++ a :: l2))%nat) by (rewrite app_length; cbn [length]; lia).
  assert (EH : enc (put_block_header true 24 0 1 1) (e_head true (0 + 2))) by (apply enc_header; unfold byte; lia).
  rewrite EH by (rewrite ?e_head_length; lia). cbn [obind]. rewrite e_head_length.
  destruct (Nat.ltb_spec 0 (length (l1 ++ a :: l2))); [|lia]. rewrite u16_id by lia.
  assert (LB : length (put_at b (Z.to_nat pos) (e_head true (0 + 2))) = length b) by (apply put_at_length; rewrite e_head_length; lia).
  rewrite (enc_u16 true (Z.of_nat (length (l1 ++ a :: l2)))) by (rewrite ?e16_length, ?LB; lia). cbn [obind]. rewrite e16_length.
  assert (LB2 : length (put_at (put_at b (Z.to_nat pos) (e_head true (0 + 2))) (Z.to_nat (pos + Z.of_nat 6)) (e16 true (Z.of_nat (length (l1 ++ a :: l2))))) = length b)
    by (rewrite put_at_length; [exact LB|rewrite e16_length, LB; lia]).
  rewrite each_app. unfold wseq at 1.
  assert (E1 : ena 0 (each (put_one_ar fuel true None) l1) (flat_map (e_entry true) l1)).
  { apply ena_each; [|lia]. intros x I. rewrite Forall_forall in OK1. pose proof (size_in l1 x I) as SI. split; [apply ena_entry; [exact F|apply OK1; exact I|lia|discriminate]|].
    destruct (OK1 x I) as (U & O & _). rewrite (e_entry_length true x U O). apply entry_four. }
  assert (L1 : length (flat_map (e_entry true) l1) = list_sum (map entry_size l1)).
  { pose proof (e_record_length true l1 OK1) as E. unfold e_record, record_size in E. rewrite app_length, e16_length in E. lia. }
  assert (S4 : Z.of_nat (list_sum (map entry_size l1)) mod 4 = 0).
  { clear. induction l1 as [|x l IH]; [reflexivity|]. cbn [map list_sum fold_right]. unfold list_sum in IH. rewrite Nat2Z.inj_add, Z.add_mod, IH, entry_four by lia. reflexivity. }
  rewrite E1; [|lia|rewrite <- Z.add_assoc, Z.add_mod, Q by lia; reflexivity|rewrite L1; lia|rewrite LB2; exact M|exact N]. cbn [obind]. rewrite L1. cbn [each]. unfold wseq at 1.
  rewrite entry_hangs; [reflexivity|exact F|exact OKA|lia|lia| |exact LQ|lia| |exact N].
  - replace (pos + Z.of_nat 6 + Z.of_nat 2 + Z.of_nat (list_sum (map entry_size l1))) with (pos + (2 * 4 + Z.of_nat (list_sum (map entry_size l1)))) by lia.
    rewrite Z.add_mod, Q, (Z.add_mod (2 * 4)), S4 by lia. reflexivity.
  - rewrite put_at_length by (rewrite L1, LB2; lia). lia.
Qed.
Print Assumptions C122_hang_refuted.

(** * Nothing outside the response *)

Definition contained (f : writer) : Prop :=
  forall b len pos, 0 <= pos <= len -> len <= Z.of_nat (length b) -> len < 65534 ->
  f (mkWr (Some b) len pos) = AssertFail \/
  exists b' pos', f (mkWr (Some b) len pos) = Ok (mkWr (Some b') len pos') /\ pos <= pos' <= len /\ length b' = length b /\
    forall i, (i < Z.to_nat pos)%nat \/ (Z.to_nat len <= i)%nat -> nth i b' 0 = nth i b 0.
Lemma con_of : forall f, stays_inside f -> contained f.
Proof. intros f H b len pos P L N. right. exact (H b len pos P L N). Qed.
Lemma con_seq : forall f g, contained f -> contained g -> contained (f ;; g).
Proof.
  intros f g F G b len pos P L N. unfold wseq. destruct (F b len pos P L N) as [E|(b1 & p1 & E1 & Q1 & L1 & K1)]; [rewrite E; left; reflexivity|]. rewrite E1. cbn [obind].
  destruct (G b1 len p1 ltac:(lia) ltac:(lia) N) as [E|(b2 & p2 & E2 & Q2 & L2 & K2)]; [left; exact E|]. right.
  exists b2, p2. split; [exact E2|]. split; [lia|]. split; [congruence|]. intros i Hi. rewrite K2 by lia. apply K1. exact Hi.
Qed.
Lemma con_align : forall fuel, contained (align fuel 0).
Proof.
  unfold align. induction fuel as [|fuel IH]; intros b len pos P L N; cbn [put_padding_align w_pos]; destruct (Z.rem (pos - 0) 4 =? 0);
    try (right; exists b, pos; repeat split; auto; lia); [left; reflexivity|].
  destruct (inside_byte 0 b len pos P L N) as (b1 & p1 & E1 & Q1 & L1 & K1). rewrite E1.
  destruct (IH b1 len p1 ltac:(lia) ltac:(lia) N) as [E|(b2 & p2 & E2 & Q2 & L2 & K2)]; [left; exact E|]. right.
  exists b2, p2. split; [exact E2|]. split; [lia|]. split; [congruence|]. intros i Hi. rewrite K2 by lia. apply K1. exact Hi.
Qed.
Lemma con_each : forall A (f : A -> writer) l, (forall x, contained (f x)) -> contained (each f l).
Proof. intros A f l H. induction l as [|x l IH]; [apply con_of; exact inside_skip|]. cbn [each]. apply con_seq; [apply H|exact IH]. Qed.
Lemma con_further : forall fuel be n, contained (put_further fuel be n).
Proof.
  intros fuel be n b len pos P L N. unfold put_further. cbn [w_pos].
  destruct (con_seq _ _ (con_of _ (inside_u16 be 0)) (con_align fuel) b len pos P L N) as [E|(b1 & p1 & E1 & Q1 & L1 & K1)]; [rewrite E; left; reflexivity|]. rewrite E1. cbn [obind w_buf w_len w_pos].
  destruct (inside_u16 be n b1 len pos ltac:(lia) ltac:(lia) N) as (b2 & p2 & E2 & Q2 & L2 & K2). rewrite E2. cbn [obind w_buf w_len]. right.
  exists b2, p1. split; [reflexivity|]. split; [lia|]. split; [congruence|]. intros i Hi. rewrite K2 by lia. apply K1. exact Hi.
Qed.
Lemma con_one : forall fuel be only a, contained (put_one_ar fuel be only a).
Proof.
  intros fuel be only a. unfold put_one_ar. do 3 (apply con_seq; [apply con_of, inside_uuid|]). apply con_seq; [apply con_of, inside_u32|]. do 7 (apply con_seq; [apply con_of, inside_u16|]).
  apply con_seq; [apply con_of, inside_mem|]. apply con_seq; [apply con_align|]. do 2 (apply con_seq; [apply con_of, inside_u16|]; apply con_seq; [apply con_align|]).
  apply con_seq; [apply con_each; intros r; unfold put_iocr; apply con_of; apply inside_seq; [apply inside_u32|]; do 3 (apply inside_seq; [apply inside_u16|]); apply inside_seq; apply inside_byte|].
  apply con_seq; [apply con_of, inside_u16|]. apply con_seq; [apply con_align|]. apply con_seq; [apply con_each; intros i; apply con_of, inside_u32|]. apply con_further.
Qed.
(** C122: whatever the connections and the room, the read writes inside the response, if it
    ends. *)
Theorem C122_inside : forall fuel t index me api, contained (read_ar_data fuel t index me api).
Proof.
  intros fuel t index me api. assert (G : forall be scope, contained (put_ar_data fuel be t scope)).
  { intros be scope b len pos P L N. unfold put_ar_data. cbn [w_pos].
    assert (IH : stays_inside (put_block_header be 24 0 1 1)) by (unfold put_block_header; apply inside_seq; [apply inside_u16|]; apply inside_seq; [apply inside_u16|]; apply inside_seq; apply inside_byte).
    destruct (IH b len pos P L N) as (b1 & p1 & E1 & Q1 & L1 & K1). rewrite E1. cbn [obind].
    match goal with |- context [if ?c then put_u16 be ?v else wskip] => assert (I2 : stays_inside (if c then put_u16 be v else wskip)) by (destruct c; [apply inside_u16|exact inside_skip]) end.
    destruct (I2 b1 len p1 ltac:(lia) ltac:(lia) N) as (b2 & p2 & E2 & Q2 & L2 & K2). rewrite E2. cbn [obind].
    match goal with |- context [obind (?f (mkWr (Some b2) len p2)) _] => assert (I3 : contained f) by (destruct scope as [[a i]|]; apply con_each; intros; apply con_one);
      destruct (I3 b2 len p2 ltac:(lia) ltac:(lia) N) as [E|(b3 & p3 & E3 & Q3 & L3 & K3)]; [rewrite E; left; reflexivity|]; rewrite E3 end.
    cbn [obind w_pos w_buf w_len]. destruct (Z.ltb_spec p1 p3).
    - unfold put_block_len. cbn [w_pos w_buf w_len]. rewrite (u16_id (pos + 2)) by lia. destruct (Z_lt_ge_dec len (pos + 2)) as [HL|HL].
      + assert (p3 <= len) by lia. exfalso.
        pose proof (fills_seq _ _ 2 4 ltac:(lia) ltac:(lia) (fills_u16 be 24) (fills_seq _ _ 2 2 ltac:(lia) ltac:(lia) (fills_u16 be (u16 (0 + 6 - 4))) (fills_seq _ _ 1 1 ltac:(lia) ltac:(lia) (fills_byte 1) (fills_byte 1)))) as FH.
        destruct (FH b len pos P L ltac:(lia)) as (b' & EF & _). assert (EQ : put_block_header be 24 0 1 1 (mkWr (Some b) len pos) = Ok (mkWr (Some b') len (Z.min len (pos + (2 + 4))))) by exact EF.
        rewrite EQ in E1. injection E1 as _ E1. lia.
      + destruct (inside_u16 be (u16 (p3 - (pos + 4))) b3 len (pos + 2) ltac:(lia) ltac:(lia) N) as (b4 & p4 & E4 & Q4 & L4 & K4). rewrite E4. cbn [obind w_buf w_len]. right.
        exists b4, p3. split; [reflexivity|]. split; [lia|]. split; [congruence|]. intros i Hi. rewrite K4, K3, K2 by lia. apply K1. exact Hi.
    - right. exists b3, pos. split; [reflexivity|]. split; [lia|]. split; [congruence|]. intros i Hi. rewrite K3, K2 by lia. apply K1. exact Hi. }
  unfold read_ar_data. destruct (index =? 61472); [apply G|]. destruct (index =? 63520); [apply G|]. apply con_of. exact inside_skip.
Qed.
Print Assumptions C122_inside.

(** C122: without connections, or over a connection without the API, the record is empty. *)
Theorem C122_none : forall fuel t index me api b len pos,
  (index = 63520 \/ index = 61472 /\ me = None) /\ conns t = [] \/ (exists a, index = 61472 /\ me = Some a /\ ~ In api (d_apis a)) ->
  0 <= pos <= len -> len <= Z.of_nat (length b) -> len < 65534 ->
  exists b', read_ar_data fuel t index me api (mkWr (Some b) len pos) = Ok (mkWr (Some b') len pos) /\ length b' = length b.
Proof.
  intros fuel t index me api b len pos H P L N.
  assert (G : forall scope, match scope with None => conns t = [] | Some (a, i) => ~ In i (d_apis a) end ->
    exists b', put_ar_data fuel true t scope (mkWr (Some b) len pos) = Ok (mkWr (Some b') len pos) /\ length b' = length b).
  { intros scope Hs. unfold put_ar_data. cbn [w_pos].
    assert (IH : stays_inside (put_block_header true 24 0 1 1)) by (unfold put_block_header; apply inside_seq; [apply inside_u16|]; apply inside_seq; [apply inside_u16|]; apply inside_seq; apply inside_byte).
    destruct (IH b len pos P L N) as (b1 & p1 & E1 & Q1 & L1 & K1). rewrite E1. cbn [obind]. exists b1. split; [|exact L1].
    destruct scope as [[a i]|].
    - assert (FE : filter (fun x => x =? i) (d_apis a) = []).
      { destruct (filter (fun x => x =? i) (d_apis a)) as [|y l] eqn:E; [reflexivity|]. exfalso. apply Hs. assert (I : In y (filter (fun x => x =? i) (d_apis a))) by (rewrite E; left; reflexivity).
        apply filter_In in I. destruct I as (I & E2). apply Z.eqb_eq in E2. subst. exact I. }
      rewrite FE. cbn [length each Nat.ltb Nat.leb]. unfold wskip. cbn [obind w_pos w_buf w_len]. rewrite Z.ltb_irrefl. reflexivity.
    - assert (FE : filter is_listed (map slot t) = []).
      { unfold conns in Hs. clear -Hs. induction t as [|[a|] t IH]; [reflexivity|discriminate|]. cbn [map slot filter]. exact (IH Hs). }
      rewrite FE. cbn [length each Nat.ltb Nat.leb]. unfold wskip. cbn [obind w_pos w_buf w_len]. rewrite Z.ltb_irrefl. reflexivity. }
  unfold read_ar_data. destruct H as [([->|(-> & ->)] & E)|(a & -> & -> & NI)]; cbn [Z.eqb Pos.eqb].
  - apply (G None). exact E.
  - apply (G None). exact E.
  - apply (G (Some (a, api))). exact NI.
Qed.
Print Assumptions C122_none.

(** * Examples *)

Definition ex_uuid (n : Z) : uuid := mkUuid n 1 2 [1; 2; 3; 4; 5; 6; 7; 8].
Definition ex_con (n : Z) (apis : list Z) (v : nat) : ard :=
  mkArd (ex_uuid n) (ex_uuid 9) (mkProps 1 false false false 0 false false true true) 1 1 3 4 34964 34962 [99; 116; 114; 108] [mkRel 1 1 32768 53 0; mkRel 1 2 32769 0 55] apis v.

(** C122, refuted: over a connection with two APIs, for one of them, the record announces two
    APIs but has one: what is read for the connection is not what it is. *)
Theorem C122_api_refuted : exists t a b' x r, ard_ok a /\ In (Some a) t /\ In 5 (d_apis a) /\
  read_ar_data 3 t 61472 (Some a) 5 (mkWr (Some (repeat 0 200)) 200 0) = Ok (mkWr (Some b') 200 124) /\
  get_ar_data (mkRd (Some b') 200 true POk 0) = Ok (x, r) /\ map t_apis (snd x) = [[5; 0]] /\ d_apis a = [0; 5] /\ BlockModel.r_pos r = 128.
Proof.
  exists [Some (ex_con 7 [0; 5] 0)], (ex_con 7 [0; 5] 0). do 3 eexists. split; [|split; [left; reflexivity|split; [right; left; reflexivity|]]].
  - unfold ard_ok, uuid_ok, props_ok, u16_ok. cbn. repeat split; try lia; repeat constructor; unfold u16_ok, u32_ok, byte; cbn; lia.
  - split; [vm_compute; reflexivity|]. split; [vm_compute; reflexivity|]. split; [reflexivity|]. split; reflexivity.
Qed.
Print Assumptions C122_api_refuted.

(** C122, refuted: a connection whose identifier starts with four bytes 0 is not told. *)
Theorem C122_zero_refuted : exists t a b' x r, ard_ok a /\ In (Some a) t /\ u_d1 (d_uuid a) = 0 /\
  read_ar_data 3 t 63520 None 0 (mkWr (Some (repeat 0 300)) 300 0) = Ok (mkWr (Some b') 300 128) /\
  get_ar_data (mkRd (Some b') 300 true POk 0) = Ok (x, r) /\ snd x = [told (ex_con 7 [0; 5] 0)] /\ a <> ex_con 7 [0; 5] 0.
Proof.
  exists [Some (ex_con 0 [0] 0); None; Some (ex_con 7 [0; 5] 0)], (ex_con 0 [0] 0). do 3 eexists. split; [|split; [left; reflexivity|split; [reflexivity|]]].
  - unfold ard_ok, uuid_ok, props_ok, u16_ok. cbn. repeat split; try lia; repeat constructor; unfold u16_ok, u32_ok, byte; cbn; lia.
  - split; [vm_compute; reflexivity|]. split; [vm_compute; reflexivity|]. split; [reflexivity|discriminate].
Qed.
Print Assumptions C122_zero_refuted.

(** C122, refuted, with vendor blocks (an option): two further blocks are announced for each
    vendor block of the connection, but the record ends there. *)
Theorem C122_vendor_refuted : forall fuel a, (3 <= fuel)%nat -> ard_ok a -> u_d1 (d_uuid a) <> 0 -> u_d1 (d_obj a) <> 0 -> Z.of_nat (record_size [a]) < 65536 ->
  exists e, t_further e = 2 * Z.of_nat (d_vendors a) /\
  round_trip4 (read_ar_data fuel [Some a] 63520 None 0) get_ar_data (mkBhead 24 (Z.of_nat (record_size [a] - 4)) 1 1, [e]) (record_size [a]) /\
  record_size [a] = (8 + up4 (66 + length (d_name a)) + 16 + 12 * length (d_rels a) + 4 * length (d_apis a))%nat.
Proof.
  intros fuel a F OK U O SZ. exists (told a). split; [reflexivity|]. split; [|unfold record_size, entry_size; cbn [map list_sum fold_right]; lia].
  assert (C1 : Forall ard_ok (conns [Some a])) by (constructor; [exact OK|constructor]).
  refine (proj1 (C122_device fuel [Some a] None 0 F C1 ltac:(discriminate) SZ _)). constructor; [split; assumption|constructor].
Qed.
Print Assumptions C122_vendor_refuted.

(** The hypotheses are met: two connections and a free entry of the table; a response of 119
    bytes is one where the read does not end. *)
Example C122_example : exists b' x r, let t := [Some (ex_con 6 [0] 1); None; Some (ex_con 7 [0; 5] 0)] in
  Forall ard_ok (conns t) /\ Forall (fun a => u_d1 (d_uuid a) <> 0 /\ u_d1 (d_obj a) <> 0) (conns t) /\ record_size (conns t) = 244%nat /\
  read_ar_data 3 t 63520 None 0 (mkWr (Some (repeat 7 300)) 300 0) = Ok (mkWr (Some b') 300 244) /\
  get_ar_data (mkRd (Some b') 300 true POk 0) = Ok (x, r) /\ snd x = [told (ex_con 6 [0] 1); told (ex_con 7 [0; 5] 0)] /\
  read_ar_data 3 t 63520 None 0 (mkWr (Some (repeat 7 300)) 119 0) = AssertFail.
Proof.
  do 3 eexists. cbn zeta. split; [|split; [|split; [reflexivity|]]].
  - repeat constructor; unfold uuid_ok, u16_ok, u32_ok, byte; cbn; lia.
  - repeat constructor; discriminate.
  - split; [vm_compute; reflexivity|]. split; [vm_compute; reflexivity|]. split; [reflexivity|vm_compute; reflexivity].
Qed.
