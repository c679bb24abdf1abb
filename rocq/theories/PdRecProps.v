(** What the records of the ports and of the interface tell, and that a controller reads back
    what it wrote (C123). *)
From Coq Require Import List ZArith Arith Bool Lia.
From Verif Require Import Base BlockModel BlockReadLemmas BlockReadProps BlockWriteProps DiffBlockProps PortModel PortProps LldpPortModel ConnRspModel ConnRspProps ArDataProps PdRecModel.
Import ListNotations.
Local Open Scope Z_scope.

(** * Specification *)

(** PDPortDataReal (IEC 61158-6-10): slot, subslot, own name, peers (name of the port, name of
    the station, delay of the line, address), MAU type, boundaries, state of the port and of
    the link, media type.  The peers are padded to multiples of four bytes from the start. *)
Record real := mkReal { t_slot : Z; t_subslot : Z; t_name : list Z; t_peers : list seen; t_mau : Z; t_domain : Z; t_multicast : Z;
  t_pstate : Z; t_link : Z; t_media : Z }.
Definition get_named : reader (list Z) := rdo n <- get_byte; get_bytes (Z.to_nat n).
Fixpoint get_seen (k : nat) (off : nat) : reader (list seen) :=
  match k with
  | O => rret []
  | S j => rdo p <- get_named; rdo s <- get_named; let e := (off + 2 + length p + length s)%nat in
           rdo _ <- pad4 e; rdo y <- get_u32; rdo m <- get_bytes 6; rdo _ <- get_bytes 2;
           rdo l <- get_seen j (up4 e + 12); rret (mkSeen p s y m :: l)
  end.
Definition get_real : reader (bhead * real) :=
  rdo h <- get_block_header; rdo _ <- get_bytes 2; rdo s <- get_u16; rdo ss <- get_u16; rdo name <- get_named; rdo k <- get_byte; rdo _ <- get_bytes 2;
  rdo l <- get_seen (Z.to_nat k) (16 + length name);
  rdo mau <- get_u16; rdo _ <- get_bytes 2; rdo dom <- get_u32; rdo mc <- get_u32; rdo st <- get_u16; rdo _ <- get_bytes 2; rdo md <- get_u32;
  rret (h, mkReal s ss name l mau dom mc (st / 256) (st mod 256) md).
(** PDPortStatistic. *)
Definition get_stats : reader (bhead * stats) :=
  rdo h <- get_block_header; rdo _ <- get_bytes 2; rdo a <- get_u32; rdo b <- get_u32; rdo c <- get_u32; rdo x <- get_u32; rdo y <- get_u32; rdo z <- get_u32;
  rret (h, mkStats a b c x y z).
(** PDInterfaceDataReal: name of the station, address, IP address, mask and gateway. *)
Record intf := mkIntf { i_name : list Z; i_mac : list Z; i_ip : Z; i_mask : Z; i_gate : Z }.
Definition get_intf : reader (bhead * intf) :=
  rdo h <- get_block_header; rdo name <- get_named; rdo _ <- pad4 (7 + length name); rdo m <- get_bytes 6; rdo _ <- get_bytes 2;
  rdo a <- get_u32; rdo b <- get_u32; rdo c <- get_u32; rret (h, mkIntf name m a b c).
(** MultipleBlockHeader: API, slot, subslot and the blocks. *)
Definition get_multi {A} (m : reader A) : reader (bhead * (Z * Z * Z) * A * (bhead * stats)) :=
  rdo h <- get_block_header; rdo _ <- get_bytes 2; rdo a <- get_u32; rdo s <- get_u16; rdo ss <- get_u16; rdo x <- m; rdo y <- get_stats;
  rret (h, (a, s, ss), x, y).
(** PDRealData: the interface, and [n] ports. *)
Definition get_device (n : nat) := rdo x <- get_multi get_intf; rdo l <- rlist (get_multi get_real) n; rret (x, l).
(** PDPortDataCheck with one block CheckPeers. *)
Definition get_check : reader (bhead * (Z * Z) * bhead * list wanted) :=
  rdo h <- get_block_header; rdo _ <- get_bytes 2; rdo s <- get_u16; rdo ss <- get_u16; rdo g <- get_block_header;
  rdo k <- get_byte; rdo l <- rlist (rdo p <- get_named; rdo t <- get_named; rret (mkWanted p t)) (Z.to_nat k);
  rdo _ <- pad4 (19 + list_sum (map (fun x => (2 + length (w_port x) + length (w_station x))%nat) l)); rret (h, (s, ss), g, l).

(** The media of a MAU type. *)
Definition media_of (mau : Z) : Z :=
  if existsb (Z.eqb mau) [5; 15; 16; 29; 30] then 1 (* copper *)
  else if existsb (Z.eqb mau) [17; 18; 21; 22] then 2 (* fiber *)
  else if mau =? 0 then 3 (* radio *) else 0.
(** What is told about a port. *)
Definition told_mau (d : pdev) (p : Z) : Z :=
  if k_running (v_link d p) then k_mau (v_link d p) else if k_mau (v_link d p) =? 0 then v_default d p else k_mau (v_link d p).
Definition told_real (d : pdev) (p : Z) : real :=
  mkReal 0 (32768 + p) (v_name d p) (match v_peer d p with Some q => [q] | None => [] end) (told_mau d p) 0 0 0
    (if k_running (v_link d p) then 1 else 2) (media_of (told_mau d p)).
Definition real_size (d : pdev) (p : Z) : nat :=
  match v_peer d p with
  | None => (36 + length (v_name d p))%nat
  | Some q => (up4 (18 + length (v_name d p) + length (n_port q) + length (n_station q)) + 32)%nat
  end.
Definition told_stats (d : pdev) (p : Z) : stats := match v_stat d p with Some x => x | None => mkStats 0 0 0 0 0 0 end.
Definition told_intf (d : pdev) : intf := mkIntf (v_station d) (v_mac d) (v_ip d) (v_mask d) (v_gate d).
Definition intf_size (d : pdev) : nat := (up4 (7 + length (v_station d)) + 20)%nat.
Definition bh (ty : Z) (n : nat) : bhead := mkBhead ty (Z.of_nat n - 4) 1 0.
Definition port_multi (d : pdev) (api p : Z) :=
  (bh 1024 (48 + real_size d p), (api, 0, 32768 + p), (bh 527 (real_size d p), told_real d p), (bh 593 32, told_stats d p)).
Definition intf_multi (d : pdev) (api : Z) :=
  (bh 1024 (48 + intf_size d), (api, 0, 32768), (bh 576 (intf_size d), told_intf d), (bh 593 32, told_stats d 0)).

Definition seen_ok (q : seen) : Prop :=
  (length (n_port q) <= 14)%nat /\ (length (n_station q) <= 240)%nat /\ u32_ok (n_delay q) /\ length (n_mac q) = 6%nat.
Definition stats_ok (x : stats) : Prop := u32_ok (x_in x) /\ u32_ok (x_out x) /\ u32_ok (x_indisc x) /\ u32_ok (x_outdisc x) /\ u32_ok (x_inerr x) /\ u32_ok (x_outerr x).
Definition port_ok (d : pdev) (p : Z) : Prop :=
  (length (v_name d p) <= 14)%nat /\ (forall q, v_peer d p = Some q -> seen_ok q) /\ u16_ok (k_mau (v_link d p)) /\ u16_ok (v_default d p) /\
  (forall x, v_stat d p = Some x -> stats_ok x).
Definition intf_ok (d : pdev) : Prop :=
  (length (v_station d) <= 240)%nat /\ length (v_mac d) = 6%nat /\ u32_ok (v_ip d) /\ u32_ok (v_mask d) /\ u32_ok (v_gate d) /\
  (forall x, v_stat d 0 = Some x -> stats_ok x).

(** * Writing at a position *)

Definition here (pos : Z) (f : writer) (bs : list Z) : Prop :=
  forall b len, pos + Z.of_nat (length bs) <= len -> len <= Z.of_nat (length b) -> len < 65536 ->
  f (mkWr (Some b) len pos) = Ok (mkWr (Some (put_at b (Z.to_nat pos) bs)) len (pos + Z.of_nat (length bs))).
Lemma here_of : forall pos f bs, 0 <= pos -> enc f bs -> here pos f bs.
Proof. intros pos f bs P E b len L M N. apply E; assumption. Qed.
Lemma here_seq : forall pos f g x y, 0 <= pos -> here pos f x -> here (pos + Z.of_nat (length x)) g y -> here pos (f ;; g) (x ++ y).
Proof.
  intros pos f g x y P F G b len L M N. unfold wseq. rewrite app_length in L.
  rewrite F by lia. cbn [obind]. rewrite G; try lia.
  - rewrite app_length. f_equal. f_equal; [|lia].
    replace (Z.to_nat (pos + Z.of_nat (length x))) with (Z.to_nat pos + length x)%nat by lia.
    f_equal. apply put_at_app. lia.
  - rewrite put_at_length; lia.
Qed.
Lemma here_align : forall pos start fuel n, (3 <= fuel)%nat -> 0 <= start -> pos = start + Z.of_nat n -> here pos (align fuel start) (repeat 0 (pad_to n)).
Proof.
  intros pos start fuel n F S1 -> b len L M N. rewrite repeat_length in *. destruct (up4_spec n) as (U1 & U2 & U3).
  rewrite (enc_align (pad_to n)); try lia; [|unfold pad_to; lia|unfold pad_to; rewrite <- U3; f_equal; lia].
  pose proof (enc_padding (pad_to n)) as E. rewrite E; try lia; [|rewrite repeat_length; lia]. rewrite repeat_length. reflexivity.
Qed.
Lemma here_block : forall pos be ty body bs, 0 <= pos -> 0 <= ty < 65536 -> Z.of_nat (length bs) < 65534 -> here (pos + 6) body bs ->
  here pos (put_block be ty body) (eblock be ty bs).
Proof.
  intros pos be ty body bs P T Lb B b len L M N. unfold put_block. cbn [w_pos].
  pose proof (eblock_length be ty bs) as Le. rewrite Le in L.
  assert (EH : enc (put_block_header be ty 0 1 0) (e16 be ty ++ e16 be (0 + 2) ++ [1; 0])) by (apply enc_header; unfold byte; lia).
  unfold wseq. rewrite EH by (rewrite ?app_length, ?e16_length; cbn [length]; lia). cbn [obind].
  assert (LH : length (e16 be ty ++ e16 be (0 + 2) ++ [1; 0]) = 6%nat) by (rewrite !app_length, !e16_length; reflexivity).
  rewrite LH. change (Z.of_nat 6) with 6.
  rewrite B by (rewrite ?put_at_length; lia). cbn [obind].
  replace (Z.to_nat (pos + 6)) with (Nat.add (Z.to_nat pos) (length (e16 be ty ++ e16 be (0 + 2) ++ [1; 0]))) by lia.
  rewrite put_at_app by lia.
  unfold put_block_len. cbn [w_pos w_buf w_len].
  replace (u16 (pos + 6 + Z.of_nat (length bs) - (pos + 4))) with (2 + Z.of_nat (length bs)) by (rewrite u16_id; lia).
  rewrite (u16_id (pos + 2)) by lia.
  assert (E2 : enc (put_u16 be (2 + Z.of_nat (length bs))) (e16 be (2 + Z.of_nat (length bs)))) by (apply enc_u16; lia).
  rewrite E2 by (rewrite ?put_at_length, ?app_length, ?e16_length; rewrite ?app_length, ?e16_length; cbn [length]; lia).
  cbn [obind w_buf w_len].
  rewrite <- !app_assoc.
  replace (Z.to_nat (pos + 2)) with (Z.to_nat pos + length (e16 be ty))%nat by (rewrite e16_length; lia).
  rewrite put_at_over; [|rewrite !e16_length; reflexivity|rewrite !app_length, !e16_length; cbn [length]; lia].
  rewrite Le. unfold eblock.
  replace (pos + 6 + Z.of_nat (length bs)) with (pos + Z.of_nat (6 + length bs)) by lia. reflexivity.
Qed.
Lemma enc_here : forall (f : writer) bs, (forall pos, 0 <= pos -> here pos f bs) -> enc f bs.
Proof. intros f bs H b len pos P L M N. exact (H pos P b len L M N). Qed.

Lemma dec_named : forall be l, (length l <= 255)%nat -> dec be be get_named ([blen l] ++ l) l.
Proof.
  intros be l L. unfold get_named. eapply dec_bind; [apply dec_byte|]. unfold blen. rewrite Nat2Z.id. apply dec_raw.
Qed.
Lemma enc_blen : forall l, (length l <= 255)%nat -> enc (put_byte (blen l)) [blen l].
Proof. intros l L. apply enc_byte. unfold byte, blen. lia. Qed.
Lemma pad4_dec : forall be n, dec be be (pad4 n) (repeat 0 (pad_to n)) (repeat 0 (pad_to n)).
Proof. intros be n. unfold pad4. apply dec_raw_n. rewrite repeat_length. reflexivity. Qed.
Lemma zeros_dec : forall be n, dec be be (get_bytes n) (repeat 0 n) (repeat 0 n).
Proof. intros be n. apply dec_raw_n. apply repeat_length. Qed.

(** * PDPortDataReal *)

Definition e_seen (be : bool) (off : nat) (q : seen) : list Z :=
  [blen (n_port q)] ++ n_port q ++ [blen (n_station q)] ++ n_station q ++ repeat 0 (pad_to (off + 2 + length (n_port q) + length (n_station q))) ++
  e32 be (n_delay q) ++ n_mac q ++ repeat 0 2.
Definition e_peer (be : bool) (off : nat) (o : option seen) : list Z := match o with None => [] | Some q => e_seen be off q end.
Definition e_real (be : bool) (subslot : Z) (name : list Z) (o : option seen) (mau lk media : Z) : list Z :=
  repeat 0 2 ++ e16 be 0 ++ e16 be subslot ++ [blen name] ++ name ++ [match o with Some _ => 1 | None => 0 end] ++ repeat 0 2 ++
  e_peer be (16 + length name) o ++ e16 be mau ++ repeat 0 2 ++ e32 be 0 ++ e32 be 0 ++ e16 be lk ++ repeat 0 2 ++ e32 be media.

Lemma here_peer : forall fuel be start off o, (3 <= fuel)%nat -> 0 <= start -> (forall q, o = Some q -> seen_ok q) ->
  here (start + Z.of_nat off) (put_peer fuel be start o) (e_peer be off o).
Proof.
  intros fuel be start off o F S1 H. destruct o as [q|]; [|apply here_of; [lia|exact enc_skip]]. destruct (H q eq_refl) as (A & B & C & D).
  unfold put_peer, e_peer, e_seen.
  apply here_seq; [lia|apply here_of; [lia|apply enc_blen; lia]|]. apply here_seq; [lia|apply here_of; [lia|apply enc_mem]|].
  apply here_seq; [lia|apply here_of; [lia|apply enc_blen; lia]|]. apply here_seq; [lia|apply here_of; [lia|apply enc_mem]|].
  apply here_seq; [lia|apply here_align; [exact F|exact S1|cbn [length]; lia]|].
  apply here_seq; [lia|apply here_of; [lia|apply enc_u32; exact C]|]. apply here_seq; [lia|apply here_of; [lia|apply enc_mem]|]. apply here_of; [lia|apply (enc_padding 2)].
Qed.
Lemma e_peer_length : forall be off o, (forall q, o = Some q -> seen_ok q) ->
  (length (e_peer be off o) + off = match o with None => off | Some q => up4 (off + 2 + length (n_port q) + length (n_station q)) + 12 end)%nat.
Proof.
  intros be off o H. destruct o as [q|]; [|reflexivity]. destruct (H q eq_refl) as (A & B & C & D). unfold e_peer, e_seen.
  rewrite !app_length, e32_length, !repeat_length, D. cbn [length]. unfold pad_to. destruct (up4_spec (off + 2 + length (n_port q) + length (n_station q))). lia.
Qed.
Definition opt_size (name : list Z) (o : option seen) : nat :=
  (match o with None => 36 + length name | Some q => up4 (18 + length name + length (n_port q) + length (n_station q)) + 32 end)%nat.
Lemma e_real_length : forall be subslot name o mau lk media, (forall q, o = Some q -> seen_ok q) ->
  (6 + length (e_real be subslot name o mau lk media) = opt_size name o)%nat.
Proof.
  intros be subslot name o mau lk media H. unfold e_real, opt_size. pose proof (e_peer_length be (16 + length name) o H) as E.
  rewrite !app_length, !e16_length, !e32_length. cbn [length repeat]. destruct o as [q|]; [|lia].
  replace (18 + length name + length (n_port q) + length (n_station q))%nat with (16 + length name + 2 + length (n_port q) + length (n_station q))%nat by lia. lia.
Qed.
Lemma opt_size_bound : forall name o, (length name <= 14)%nat -> (forall q, o = Some q -> seen_ok q) -> (36 <= opt_size name o <= 400)%nat.
Proof.
  intros name o L H. unfold opt_size. destruct o as [q|]; [|lia]. destruct (H q eq_refl) as (A & B & _).
  destruct (up4_spec (18 + length name + length (n_port q) + length (n_station q))). lia.
Qed.
Lemma enc_real : forall fuel be subslot name o k media, (3 <= fuel)%nat -> u16_ok subslot -> (length name <= 14)%nat -> (forall q, o = Some q -> seen_ok q) ->
  u16_ok (k_mau k) -> u32_ok media ->
  enc (put_real fuel be subslot name o k media) (eblock be 527 (e_real be subslot name o (k_mau k) (if k_running k then 1 else 2) media)).
Proof.
  intros fuel be subslot name o k media F S1 L H M1 M2. apply enc_here. intros pos P b len A B C. unfold put_real. cbn [w_pos].
  pose proof (e_real_length be subslot name o (k_mau k) (if k_running k then 1 else 2) media H) as EL. pose proof (opt_size_bound name o L H) as OB.
  refine (here_block pos be 527 _ _ P _ _ _ b len A B C); [lia|lia|]. unfold e_real, u16_ok, u32_ok in *.
  apply here_seq; [lia|apply here_of; [lia|apply (enc_padding 2)]|]. apply here_seq; [lia|apply here_of; [lia|apply enc_u16; lia]|].
  apply here_seq; [lia|apply here_of; [lia|apply enc_u16; lia]|]. apply here_seq; [lia|apply here_of; [lia|apply enc_blen; lia]|].
  apply here_seq; [lia|apply here_of; [lia|apply enc_mem]|]. apply here_seq; [lia|apply here_of; [lia|apply enc_byte; unfold byte; destruct o; lia]|].
  apply here_seq; [lia|apply here_of; [lia|apply (enc_padding 2)]|].
  apply here_seq; [lia| |].
  { replace (pos + 6 + Z.of_nat (length (repeat 0 2)) + Z.of_nat (length (e16 be 0)) + Z.of_nat (length (e16 be subslot)) + Z.of_nat (length [blen name]) + Z.of_nat (length name) +
      Z.of_nat (length [match o with Some _ => 1 | None => 0 end]) + Z.of_nat (length (repeat 0 2))) with (pos + Z.of_nat (16 + length name)) by (rewrite !e16_length; cbn [length repeat]; lia).
    apply here_peer; assumption. }
  apply here_of; [lia|].
  apply enc_seq; [apply enc_u16; lia|]. apply enc_seq; [apply (enc_padding 2)|]. apply enc_seq; [apply enc_u32; lia|]. apply enc_seq; [apply enc_u32; lia|].
  apply enc_seq; [apply enc_u16; destruct (k_running k); lia|]. apply enc_seq; [apply (enc_padding 2)|]. apply enc_u32; lia.
Qed.
Lemma dec_seen : forall be off o, (forall q, o = Some q -> seen_ok q) ->
  dec be be (get_seen (match o with Some _ => 1 | None => 0 end) off) (e_peer be off o) (match o with Some q => [q] | None => [] end).
Proof.
  intros be off o H. destruct o as [q|]; [|apply dec_ret]. destruct (H q eq_refl) as (A & B & C & D). cbn [get_seen]. unfold e_peer, e_seen.
  rewrite (app_assoc [blen (n_port q)]). rewrite (app_assoc [blen (n_station q)]).
  eapply dec_bind; [apply dec_named; lia|]. eapply dec_bind; [apply dec_named; lia|]. eapply dec_bind; [apply pad4_dec|].
  eapply dec_bind; [apply dec_u32; exact C|]. eapply dec_bind; [apply dec_raw_n; exact D|]. rewrite <- (app_nil_r (repeat 0 2)).
  apply (dec_bind _ _ be be be _ _ (repeat 0 2) [] (repeat 0 2)); [apply zeros_dec|]. eapply dec_last; [apply dec_ret|]. destruct q; reflexivity.
Qed.
Lemma dec_real : forall be subslot name o mau lk media, u16_ok subslot -> (length name <= 14)%nat -> (forall q, o = Some q -> seen_ok q) -> u16_ok mau -> u16_ok lk -> u32_ok media ->
  dec be be get_real (eblock be 527 (e_real be subslot name o mau lk media))
    (bh 527 (opt_size name o), mkReal 0 subslot name (match o with Some q => [q] | None => [] end) mau 0 0 (lk / 256) (lk mod 256) media).
Proof.
  intros be subslot name o mau lk media S1 L H M1 M2 M3. unfold get_real.
  pose proof (e_real_length be subslot name o mau lk media H) as EL. pose proof (opt_size_bound name o L H) as OB.
  apply dec_one; [lia|lia|].
  replace (2 + Z.of_nat (length (e_real be subslot name o mau lk media))) with (Z.of_nat (opt_size name o) - 4) by lia.
  unfold e_real, u16_ok, u32_ok in *.
  apply (dec_bind _ _ be be be _ _ (repeat 0 2) _ (repeat 0 2)); [apply zeros_dec|].
  eapply dec_bind; [apply dec_u16; lia|]. eapply dec_bind; [apply dec_u16; lia|]. rewrite (app_assoc [blen name]). eapply dec_bind; [apply dec_named; lia|].
  eapply dec_bind; [apply dec_byte|]. apply (dec_bind _ _ be be be _ _ (repeat 0 2) _ (repeat 0 2)); [apply zeros_dec|].
  eapply dec_bind.
  { replace (Z.to_nat (match o with Some _ => 1 | None => 0 end)) with (match o with Some _ => 1 | None => 0 end)%nat by (destruct o; reflexivity). apply dec_seen. exact H. }
  eapply dec_bind; [apply dec_u16; lia|]. apply (dec_bind _ _ be be be _ _ (repeat 0 2) _ (repeat 0 2)); [apply zeros_dec|].
  eapply dec_bind; [apply dec_u32; lia|]. eapply dec_bind; [apply dec_u32; lia|]. eapply dec_bind; [apply dec_u16; lia|].
  apply (dec_bind _ _ be be be _ _ (repeat 0 2) _ (repeat 0 2)); [apply zeros_dec|]. eapply dec_last; [apply dec_u32; lia|]. reflexivity.
Qed.

(** * Statistics and the interface *)

Definition e_stats (be : bool) (x : stats) : list Z :=
  repeat 0 2 ++ e32 be (x_in x) ++ e32 be (x_out x) ++ e32 be (x_indisc x) ++ e32 be (x_outdisc x) ++ e32 be (x_inerr x) ++ e32 be (x_outerr x).
Lemma e_stats_length : forall be x, length (e_stats be x) = 26%nat.
Proof. intros. unfold e_stats. rewrite !app_length, !e32_length. reflexivity. Qed.
Lemma enc_stats : forall be x, stats_ok x -> enc (put_stats be x) (eblock be 593 (e_stats be x)).
Proof.
  intros be x (A & B & C & D & E & F). unfold put_stats. apply enc_block; [lia|rewrite e_stats_length; lia|]. unfold e_stats, u32_ok in *.
  apply enc_seq; [apply (enc_padding 2)|]. do 5 (apply enc_seq; [apply enc_u32; lia|]). apply enc_u32; lia.
Qed.
Lemma dec_stats : forall be x, stats_ok x -> dec be be get_stats (eblock be 593 (e_stats be x)) (bh 593 32, x).
Proof.
  intros be x (A & B & C & D & E & F). unfold get_stats. apply dec_one; [lia|rewrite e_stats_length; lia|]. rewrite e_stats_length. unfold e_stats, u32_ok in *.
  apply (dec_bind _ _ be be be _ _ (repeat 0 2) _ (repeat 0 2)); [apply zeros_dec|]. do 5 (eapply dec_bind; [apply dec_u32; lia|]). eapply dec_last; [apply dec_u32; lia|]. destruct x; reflexivity.
Qed.
Lemma told_stats_ok : forall d p, (forall x, v_stat d p = Some x -> stats_ok x) -> stats_ok (stats_or_0 d p).
Proof. intros d p H. unfold stats_or_0. destruct (v_stat d p) as [x|]; [apply H; reflexivity|]. unfold stats_ok, stats0, u32_ok. cbn [x_in x_out x_indisc x_outdisc x_inerr x_outerr]. lia. Qed.

Definition e_intf (be : bool) (d : pdev) : list Z :=
  [blen (v_station d)] ++ v_station d ++ repeat 0 (pad_to (7 + length (v_station d))) ++ v_mac d ++ repeat 0 2 ++ e32 be (v_ip d) ++ e32 be (v_mask d) ++ e32 be (v_gate d).
Lemma e_intf_length : forall be d, intf_ok d -> (6 + length (e_intf be d) = intf_size d /\ intf_size d <= 300)%nat.
Proof.
  intros be d (A & B & _). unfold e_intf, intf_size. rewrite !app_length, !e32_length, !repeat_length, B. cbn [length]. unfold pad_to. destruct (up4_spec (7 + length (v_station d))). lia.
Qed.
Lemma enc_intf : forall fuel be d, (3 <= fuel)%nat -> intf_ok d ->
  enc (put_intf fuel be (v_mac d) (v_ip d) (v_mask d) (v_gate d) (v_station d)) (eblock be 576 (e_intf be d)).
Proof.
  intros fuel be d F O. pose proof (e_intf_length be d O) as (EL & EB). destruct O as (A & B & C & D & E & _). apply enc_here. intros pos P b len L M N. unfold put_intf. cbn [w_pos].
  refine (here_block pos be 576 _ _ P _ _ _ b len L M N); [lia|lia|]. unfold e_intf, u32_ok in *.
  apply here_seq; [lia|apply here_of; [lia|apply enc_blen; lia]|]. apply here_seq; [lia|apply here_of; [lia|apply enc_mem]|].
  apply here_seq; [lia|apply here_align; [exact F|exact P|cbn [length]; lia]|]. apply here_of; [lia|].
  apply enc_seq; [apply enc_mem|]. apply enc_seq; [apply (enc_padding 2)|]. do 2 (apply enc_seq; [apply enc_u32; lia|]). apply enc_u32; lia.
Qed.
Lemma dec_intf : forall be d, intf_ok d -> dec be be get_intf (eblock be 576 (e_intf be d)) (bh 576 (intf_size d), told_intf d).
Proof.
  intros be d O. pose proof (e_intf_length be d O) as (EL & EB). destruct O as (A & B & C & D & E & _). unfold get_intf. apply dec_one; [lia|lia|].
  replace (2 + Z.of_nat (length (e_intf be d))) with (Z.of_nat (intf_size d) - 4) by lia. unfold e_intf, u32_ok in *.
  rewrite (app_assoc [blen (v_station d)]). eapply dec_bind; [apply dec_named; lia|]. eapply dec_bind; [apply pad4_dec|]. eapply dec_bind; [apply dec_raw_n; exact B|].
  apply (dec_bind _ _ be be be _ _ (repeat 0 2) _ (repeat 0 2)); [apply zeros_dec|]. do 2 (eapply dec_bind; [apply dec_u32; lia|]). eapply dec_last; [apply dec_u32; lia|]. reflexivity.
Qed.

(** * Blocks of several *)

Definition e_multi (be : bool) (api subslot : Z) (x : list Z) (s : stats) : list Z :=
  repeat 0 2 ++ e32 be api ++ e16 be 0 ++ e16 be subslot ++ x ++ eblock be 593 (e_stats be s).
Lemma e_multi_length : forall be api subslot x s, length (e_multi be api subslot x s) = (42 + length x)%nat.
Proof. intros. unfold e_multi. rewrite !app_length, e32_length, !e16_length, eblock_length, e_stats_length. cbn [length repeat]. lia. Qed.
Lemma enc_multi : forall be api subslot f x s, u32_ok api -> u16_ok subslot -> enc f x -> (length x <= 1000)%nat -> stats_ok s ->
  enc (put_block be 1024 (put_padding 2 ;; put_u32 be api ;; put_u16 be 0 ;; put_u16 be subslot ;; f ;; put_stats be s)) (eblock be 1024 (e_multi be api subslot x s)).
Proof.
  intros be api subslot f x s A S1 E L O. apply enc_block; [lia|rewrite e_multi_length; lia|]. unfold e_multi, u32_ok, u16_ok in *.
  apply enc_seq; [apply (enc_padding 2)|]. apply enc_seq; [apply enc_u32; lia|]. do 2 (apply enc_seq; [apply enc_u16; lia|]). apply enc_seq; [exact E|]. apply enc_stats. exact O.
Qed.
Lemma dec_multi : forall A be api subslot (m : reader A) x v s, u32_ok api -> u16_ok subslot -> dec be be m x v -> (length x <= 1000)%nat -> stats_ok s ->
  dec be be (get_multi m) (eblock be 1024 (e_multi be api subslot x s)) (bh 1024 (48 + length x), (api, 0, subslot), v, (bh 593 32, s)).
Proof.
  intros A be api subslot m x v s O1 O2 D L O. unfold get_multi. apply dec_one; [lia|rewrite e_multi_length; lia|]. rewrite e_multi_length.
  replace (2 + Z.of_nat (42 + length x)) with (Z.of_nat (48 + length x) - 4) by lia. unfold e_multi, u32_ok, u16_ok in *.
  apply (dec_bind _ _ be be be _ _ (repeat 0 2) _ (repeat 0 2)); [apply zeros_dec|]. eapply dec_bind; [apply dec_u32; lia|]. do 2 (eapply dec_bind; [apply dec_u16; lia|]).
  eapply dec_bind; [exact D|]. eapply dec_last; [apply dec_stats; exact O|]. reflexivity.
Qed.

(** * A port of the device *)

Lemma media_same : forall m, media_type m = media_of m.
Proof.
  intros m. unfold media_type, media_of. cbn [existsb]. rewrite !orb_false_r.
  destruct (Z.eqb_spec m 0) as [->|Z0]; [reflexivity|]. rewrite !orb_assoc. reflexivity.
Qed.
Lemma media_range : forall m, u32_ok (media_type m).
Proof.
  intros m. unfold media_type, u32_ok. destruct (m =? 0); [lia|]. destruct ((m =? 5) || (m =? 15) || (m =? 16) || (m =? 29) || (m =? 30)); [lia|].
  destruct ((m =? 17) || (m =? 18) || (m =? 21) || (m =? 22)); lia.
Qed.
Lemma mau_same : forall d p, k_mau (filtered d p) = told_mau d p /\ k_running (filtered d p) = k_running (v_link d p).
Proof. intros d p. unfold filtered, told_mau. cbn [k_mau k_running]. split; [|reflexivity]. destruct (k_running (v_link d p)), (k_mau (v_link d p) =? 0); reflexivity. Qed.
Lemma told_mau_ok : forall d p, port_ok d p -> u16_ok (told_mau d p).
Proof. intros d p (_ & _ & A & B & _). unfold told_mau. destruct (k_running (v_link d p)); [exact A|]. destruct (k_mau (v_link d p) =? 0); assumption. Qed.
Lemma subslot_port : forall n p, 1 <= p <= n -> subslot_to_port n (32768 + p) = p /\ subslot_is_port n (32768 + p) = true.
Proof.
  intros n p H. assert (E : subslot_to_port n (32768 + p) = p).
  { unfold subslot_to_port. replace (1 + (32768 + p) - 32769) with p by lia. unfold port_valid. destruct (Z.ltb_spec 0 p); [|lia]. destruct (Z.leb_spec p n); [reflexivity|lia]. }
  split; [exact E|]. unfold subslot_is_port. rewrite E. destruct (Z.eqb_spec p 0); [lia|reflexivity].
Qed.
Definition real_bytes (d : pdev) (p : Z) : list Z :=
  eblock true 527 (e_real true (32768 + p) (v_name d p) (v_peer d p) (told_mau d p) (if k_running (v_link d p) then 1 else 2) (media_of (told_mau d p))).
Definition real_put (fuel : nat) (d : pdev) (p : Z) : writer := put_real fuel true (32768 + p) (v_name d p) (v_peer d p) (filtered d p) (media_type (k_mau (filtered d p))).
Lemma real_bytes_length : forall d p, port_ok d p -> length (real_bytes d p) = real_size d p /\ (36 <= real_size d p <= 400)%nat.
Proof.
  intros d p (A & B & _). unfold real_bytes. rewrite eblock_length, e_real_length by exact B. split; [reflexivity|]. exact (opt_size_bound _ _ A B).
Qed.
Lemma enc_port : forall fuel d p, (3 <= fuel)%nat -> 1 <= p <= 255 -> port_ok d p -> enc (real_put fuel d p) (real_bytes d p).
Proof.
  intros fuel d p F P O. unfold real_put, real_bytes. destruct (mau_same d p) as (<- & <-). rewrite <- media_same. pose proof (told_mau_ok d p O) as T. destruct O as (A & B & C & D & E).
  apply enc_real; try assumption; [unfold u16_ok; lia| |apply media_range]. destruct (mau_same d p) as (-> & _). exact T.
Qed.
Lemma dec_port : forall d p, 1 <= p <= 255 -> port_ok d p -> dec true true get_real (real_bytes d p) (bh 527 (real_size d p), told_real d p).
Proof.
  intros d p P O. unfold real_bytes, told_real. pose proof (told_mau_ok d p O) as T. destruct O as (A & B & C & D & E).
  replace 0 with ((if k_running (v_link d p) then 1 else 2) / 256) at 4 by (destruct (k_running (v_link d p)); reflexivity).
  replace (if k_running (v_link d p) then 1 else 2) with ((if k_running (v_link d p) then 1 else 2) mod 256) at 3 by (destruct (k_running (v_link d p)); reflexivity).
  apply dec_real; try assumption; [unfold u16_ok; lia|unfold u16_ok; destruct (k_running (v_link d p)); lia|rewrite <- media_same; apply media_range].
Qed.

(** C123: the record of a port tells its name, the peer, the MAU type, link and media. *)
Theorem C123_port : forall turns fuel d api p, (3 <= fuel)%nat -> 1 <= p <= v_n d -> v_n d <= 255 -> port_ok d p ->
  exists w, pd_read turns fuel d api 0 (32768 + p) 32810 = (true, w) /\
    round_trip true true w get_real (bh 527 (real_size d p), told_real d p) (real_size d p).
Proof.
  intros turns fuel d api p F P N O. exists (real_put fuel d p). destruct (subslot_port (v_n d) p P) as (E1 & E2). destruct (real_bytes_length d p O) as (L & _). split.
  - unfold pd_read. rewrite E1, E2. reflexivity.
  - rewrite <- L. apply rt_of; [apply enc_port; [exact F|lia|exact O]|]. rewrite L. apply dec_port; [lia|exact O].
Qed.
Print Assumptions C123_port.

(** C123: the statistics of a port or of the interface are those of the network interface; if
    it has none the read fails. *)
Theorem C123_statistics : forall turns fuel d api p, 0 <= p <= v_n d -> v_n d <= 255 ->
  (forall x, v_stat d p = Some x -> stats_ok x -> exists w, pd_read turns fuel d api 0 (32768 + p) 32882 = (true, w) /\ round_trip true true w get_stats (bh 593 32, x) 32) /\
  (v_stat d p = None -> pd_read turns fuel d api 0 (32768 + p) 32882 = (false, wskip)).
Proof.
  intros turns fuel d api p P N. assert (E : pd_read turns fuel d api 0 (32768 + p) 32882 = match v_stat d p with Some x => (true, put_stats true x) | None => (false, wskip) end).
  { unfold pd_read. cbn [Z.eqb Pos.eqb andb]. destruct (Z.eq_dec p 0) as [->|P0].
    - replace (subslot_to_port (v_n d) (32768 + 0)) with 0 by reflexivity. reflexivity.
    - destruct (subslot_port (v_n d) p ltac:(lia)) as (E1 & E2). rewrite E1, E2, orb_true_r. reflexivity. }
  split; [|intros H; rewrite E, H; reflexivity]. intros x X O. exists (put_stats true x). rewrite E, X. split; [reflexivity|].
  replace 32%nat with (length (eblock true 593 (e_stats true x))) at 2 by (rewrite eblock_length, e_stats_length; reflexivity). apply rt_of; [apply enc_stats; exact O|apply dec_stats; exact O].
Qed.
Print Assumptions C123_statistics.

(** C123: the record of the interface tells name, address and IP settings. *)
Theorem C123_interface : forall turns fuel d api, (3 <= fuel)%nat -> intf_ok d ->
  exists w, pd_read turns fuel d api 0 32768 32896 = (true, w) /\ round_trip true true w get_intf (bh 576 (intf_size d), told_intf d) (intf_size d).
Proof.
  intros turns fuel d api F O. eexists. split; [reflexivity|]. destruct (e_intf_length true d O) as (L & _).
  assert (L2 : length (eblock true 576 (e_intf true d)) = intf_size d) by (rewrite eblock_length; exact L). rewrite <- L2. apply rt_of; [apply enc_intf; assumption|]. rewrite L2. apply dec_intf. exact O.
Qed.
Print Assumptions C123_interface.

(** * All ports *)

Definition multi_bytes (d : pdev) (api p : Z) : list Z := eblock true 1024 (e_multi true api (32768 + p) (real_bytes d p) (told_stats d p)).
Lemma port_of : forall n p, 1 <= p <= n -> n <= 255 -> port_to_subslot n p = Ok (32768 + p).
Proof.
  intros n p P N. unfold port_to_subslot, port_valid. destruct (Z.ltb_spec 0 p); [|lia]. destruct (Z.leb_spec p n); [|lia]. cbn [andb]. rewrite u16_id by lia. f_equal. lia.
Qed.
Fixpoint from (q : Z) (k : nat) : list Z := match k with O => [] | S j => q :: from (q + 1) j end.
Lemma from_ports : forall n, from 1 n = ports n.
Proof.
  intros n. unfold ports. change 1 with (Z.of_nat 0 + 1) at 1. generalize 0%nat. induction n as [|n IH]; intros k; [reflexivity|]. cbn [from seq map]. f_equal.
  rewrite <- IH. f_equal. lia.
Qed.
Lemma enc_all : forall fuel d api k q turns, (3 <= fuel)%nat -> u32_ok api -> v_n d <= 255 -> 1 <= q -> q + Z.of_nat k = v_n d -> (k + 2 <= turns)%nat -> (forall p, 1 <= p <= v_n d -> port_ok d p) ->
  enc (real_all turns fuel d api q (if q =? v_n d then mkIter 0 (v_n d) else mkIter (q + 1) (v_n d))) (flat_map (multi_bytes d api) (from q (S k))).
Proof.
  intros fuel d api k. induction k as [|k IH]; intros q turns F A N Q K T O; (destruct turns as [|turns]; [lia|]); cbn [real_all from flat_map].
  all: destruct (Z.eqb_spec q 0); [lia|]; apply enc_seq.
  1, 3: intros b len pos P L M X; rewrite port_of by lia; cbn [obind]; revert b len pos P L M X;
    change (enc (put_multi_port fuel true api (32768 + q) (v_name d q) (v_peer d q) (filtered d q) (media_type (k_mau (filtered d q))) (stats_or_0 d q)) (multi_bytes d api q));
    unfold put_multi_port, multi_bytes; change (told_stats d q) with (stats_or_0 d q); (apply enc_multi; [exact A|unfold u16_ok; lia|apply enc_port; [exact F|lia|apply O; lia]| |apply told_stats_ok; apply (O q ltac:(lia))]);
    destruct (real_bytes_length d q (O q ltac:(lia))); lia.
  - destruct (Z.eqb_spec q (v_n d)) as [->|]; [|lia]. unfold get_next. cbn [it_next it_n]. rewrite orb_true_r. cbn [fst snd]. destruct turns as [|turns]; [lia|]. cbn [real_all Z.eqb]. exact enc_skip.
  - destruct (Z.eqb_spec q (v_n d)); [lia|]. unfold get_next. cbn [it_next it_n]. destruct (Z.eqb_spec (q + 1) (v_n d)) as [E|E]; cbn [orb].
    + cbn [fst snd]. assert (k = 0%nat) by lia. subst k. pose proof (IH (q + 1) turns F A N ltac:(lia) ltac:(lia) ltac:(lia) O) as R. destruct (Z.eqb_spec (q + 1) (v_n d)); [|lia]. exact R.
    + destruct (Z.eqb_spec (q + 1) 0); [lia|]. destruct (Z.ltb_spec (v_n d) (q + 1)); [lia|]. cbn [fst snd].
      pose proof (IH (q + 1) turns F A N ltac:(lia) ltac:(lia) ltac:(lia) O) as R. destruct (Z.eqb_spec (q + 1) (v_n d)); [lia|]. exact R.
Qed.
Lemma dec_multi_port : forall d api p, u32_ok api -> 1 <= p <= 255 -> port_ok d p -> dec true true (get_multi get_real) (multi_bytes d api p) (port_multi d api p).
Proof.
  intros d api p A P O. unfold multi_bytes, port_multi. destruct (real_bytes_length d p O) as (L & B). rewrite <- L at 1.
  apply dec_multi; [exact A|unfold u16_ok; lia|apply dec_port; assumption|lia|]. change (told_stats d p) with (stats_or_0 d p). apply told_stats_ok. apply O.
Qed.
Definition device_size (d : pdev) : nat := (48 + intf_size d + list_sum (map (fun p => 48 + real_size d p) (ports (Z.to_nat (v_n d)))))%nat.
Lemma ports_in : forall n p, In p (ports n) -> 1 <= p <= Z.of_nat n.
Proof. intros n p I. unfold ports in I. apply in_map_iff in I. destruct I as (k & <- & I). apply in_seq in I. lia. Qed.

(** C123: one read tells the settings and statistics of the interface and, port by port,
    everything of every port. *)
Theorem C123_device : forall turns fuel d api slot subslot, (3 <= fuel)%nat -> u32_ok api -> 1 <= v_n d <= 255 -> (Z.to_nat (v_n d) < turns)%nat ->
  intf_ok d -> (forall p, 1 <= p <= v_n d -> port_ok d p) ->
  exists w, pd_read turns fuel d api slot subslot 63553 = (true, w) /\
    round_trip true true w (get_device (Z.to_nat (v_n d))) (intf_multi d api, map (port_multi d api) (ports (Z.to_nat (v_n d)))) (device_size d).
Proof.
  intros turns fuel d api slot subslot F A N T OI O. eexists. split; [reflexivity|].
  destruct (e_intf_length true d OI) as (LI & BI). set (n := Z.to_nat (v_n d)).
  assert (SO : stats_ok (stats_or_0 d 0)) by (apply told_stats_ok; apply OI).
  assert (LB : length (eblock true 576 (e_intf true d)) = intf_size d) by (rewrite eblock_length; exact LI).
  set (x := eblock true 1024 (e_multi true api 32768 (eblock true 576 (e_intf true d)) (stats_or_0 d 0))).
  assert (EX : enc (put_multi_intf fuel true api (v_mac d) (v_ip d) (v_mask d) (v_gate d) (v_station d) (stats_or_0 d 0)) x).
  { apply enc_multi; [exact A|unfold u16_ok; lia|apply enc_intf; assumption|lia|exact SO]. }
  assert (EA : enc (real_all turns fuel d api (fst (get_next (iter_init (v_n d)))) (snd (get_next (iter_init (v_n d))))) (flat_map (multi_bytes d api) (ports n))).
  { replace n with (S (n - 1)) by (unfold n; lia). rewrite <- from_ports. pose proof (enc_all fuel d api (n - 1) 1 turns F A ltac:(lia) ltac:(lia) ltac:(unfold n; lia) ltac:(unfold n; lia) O) as R.
    unfold get_next, iter_init. cbn [it_next it_n]. destruct (Z.eqb_spec 1 (v_n d)); cbn [orb]; [exact R|]. cbn [Z.eqb]. destruct (Z.ltb_spec (v_n d) 1); [lia|]. exact R. }
  assert (LA : length (x ++ flat_map (multi_bytes d api) (ports n)) = device_size d).
  { unfold device_size. rewrite app_length. unfold x. rewrite eblock_length, e_multi_length, LB. fold n. f_equal.
    assert (G : forall l, (forall p, In p l -> port_ok d p) -> length (flat_map (multi_bytes d api) l) = list_sum (map (fun p => 48 + real_size d p)%nat l)).
    { induction l as [|p l IH]; intros H; [reflexivity|]. cbn [flat_map map list_sum fold_right]. rewrite app_length, IH by (intros; apply H; right; assumption). f_equal.
      unfold multi_bytes. rewrite eblock_length, e_multi_length. destruct (real_bytes_length d p (H p (or_introl eq_refl))). lia. }
    apply G. intros p I. apply ports_in in I. apply O. unfold n in I. lia. }
  rewrite <- LA. apply rt_of; [apply enc_seq; [exact EX|exact EA]|]. unfold get_device. eapply dec_bind.
  - unfold x. apply dec_multi; [exact A|unfold u16_ok; lia|apply dec_intf; exact OI|lia|exact SO].
  - cbn beta. eapply dec_last.
    + pose proof (dec_list Z _ true (get_multi get_real) (multi_bytes d api) (port_multi d api) (ports n)) as R.
      assert (PL : length (ports n) = n) by (unfold ports; rewrite map_length, seq_length; reflexivity). rewrite PL in R. apply R.
      intros p I. apply ports_in in I. apply dec_multi_port; [exact A|unfold n in I; lia|apply O; unfold n in I; lia].
    + unfold intf_multi. rewrite LB. reflexivity.
Qed.
Print Assumptions C123_device.

(** * Writing a record and reading it back *)

(** A dec is a parse of the whole of a list. *)
Lemma run_dec : forall A (m : reader A) bs v post, dec true true m bs v -> Z.of_nat (length (bs ++ post)) < 65536 ->
  m (mkRd (Some (bs ++ post)) (blen (bs ++ post)) true POk 0) = Ok (v, mkRd (Some (bs ++ post)) (blen (bs ++ post)) true POk (Z.of_nat (length bs))).
Proof.
  intros A m bs v post D L. exact (D [] post (blen (bs ++ post)) ltac:(unfold blen; rewrite app_length; cbn [length]; lia) ltac:(unfold blen; cbn [app]; lia) ltac:(unfold blen; lia)).
Qed.
Lemma dec_into : forall be cap old n l, Z.of_nat (length l) = n -> n <= cap -> dec be be (get_mem_into cap old n) l (l ++ skipn (length l) old).
Proof.
  intros be cap old n l <- C pre post len L M N. unfold get_mem_into. rewrite C27_mem by (rewrite ?app_length in *; lia).
  destruct (Z.leb_spec (Z.of_nat (length pre) + Z.of_nat (length l)) len); [|lia]. cbn [obind]. destruct (Z.ltb_spec cap (Z.of_nat (length l))); [lia|].
  rewrite !Nat2Z.id, skipn_app, skipn_all, Nat.sub_diag. cbn [skipn app]. rewrite firstn_app, firstn_all, Nat.sub_diag. cbn [firstn]. rewrite app_nil_r. do 3 f_equal. lia.
Qed.
Lemma dec_nul : forall be s k, (Z.to_nat k < length s)%nat -> dec be be (put_nul s k) [] (firstn (Z.to_nat k) s ++ [0] ++ skipn (Z.to_nat k + 1) s).
Proof.
  intros be s k H pre post len L M N. unfold put_nul. destruct (Nat.ltb_spec (Z.to_nat k) (length s)); [|lia]. cbn [length]. rewrite Nat.add_0_r. reflexivity.
Qed.
Lemma cut : forall (l x y : list Z), firstn (length l) (firstn (length l) (l ++ x) ++ y) = l.
Proof. intros l x y. rewrite (firstn_app (length l) l x), firstn_all, Nat.sub_diag. cbn [firstn]. rewrite app_nil_r, firstn_app, firstn_all, Nat.sub_diag. cbn [firstn]. apply app_nil_r. Qed.
Lemma get_wanted_dec : forall p s, (length p <= 255)%nat -> (length s <= 240)%nat ->
  dec true true get_wanted ([blen p] ++ p ++ [blen s] ++ s) (mkWanted p s).
Proof.
  intros p s P S1. unfold get_wanted. eapply dec_bind; [apply dec_byte|]. cbn beta. eapply dec_bind; [apply (dec_into true 256 (repeat 0 256) (blen p) p); [reflexivity|unfold blen; lia]|].
  assert (N1 : Z.to_nat (blen p) = length p) by (unfold blen; lia). assert (N2 : Z.to_nat (blen s) = length s) by (unfold blen; lia).
  rewrite <- (app_nil_l ([blen s] ++ s)). eapply dec_bind; [apply dec_nul; rewrite N1, app_length, skipn_length, repeat_length; lia|].
  cbn beta. eapply dec_bind; [apply dec_byte|]. cbn beta. rewrite <- (app_nil_r s) at 2. eapply dec_bind; [apply (dec_into true 241 (repeat 0 241) (blen s) s); [reflexivity|unfold blen; lia]|].
  eapply dec_last; [apply dec_nul; rewrite N2, app_length, skipn_length, repeat_length; lia|].
  cbn beta. rewrite N1, N2, !cut. reflexivity.
Qed.

(** The bytes at the start of a record for a port: the header, two bytes, slot and subslot, and the
    header of the block inside, of type [ty]. *)
Definition opening (head pre : list Z) (s ss ty len vh vl : Z) : list Z := head ++ pre ++ e16 true s ++ e16 true ss ++ e16 true ty ++ e16 true len ++ [vh; vl].
Definition opening_ok (head pre : list Z) (s ss ty len : Z) : Prop := length head = 6%nat /\ length pre = 2%nat /\ u16_ok s /\ u16_ok ss /\ u16_ok ty /\ u16_ok len.
Lemma dec_opening : forall pre s ss ty len vh vl, length pre = 2%nat -> u16_ok s -> u16_ok ss -> u16_ok ty -> u16_ok len ->
  dec true true get_port_data (pre ++ e16 true s ++ e16 true ss ++ e16 true ty ++ e16 true len ++ [vh; vl]) (mkBhead ty len vh vl).
Proof.
  intros pre s ss ty len vh vl L A B C D. unfold get_port_data, u16_ok in *. eapply dec_bind; [apply dec_into; [rewrite L; reflexivity|lia]|].
  eapply dec_bind; [apply dec_u16; lia|]. eapply dec_bind; [apply dec_u16; lia|]. apply dec_header; lia.
Qed.
Lemma opening_skip : forall head pre s ss ty len vh vl x, length head = 6%nat ->
  skipn 6 (opening head pre s ss ty len vh vl ++ x) = (pre ++ e16 true s ++ e16 true ss ++ e16 true ty ++ e16 true len ++ [vh; vl]) ++ x.
Proof.
  intros head pre s ss ty len vh vl x H. unfold opening. rewrite <- app_assoc. rewrite skipn_app, <- H, skipn_all, Nat.sub_diag. reflexivity.
Qed.
Lemma write_port : forall d slot p index bytes, 1 <= p <= v_n d ->
  pd_write d slot (32768 + p) index bytes = if index =? 32811 then write_check d p bytes else if index =? 32815 then write_adjust d p bytes else Ok (d, false).
Proof. intros d slot p index bytes P. unfold pd_write. destruct (subslot_port (v_n d) p P) as (-> & _). destruct (Z.ltb_spec 0 p); [reflexivity|lia]. Qed.

Definition check_size (w : wanted) : nat := up4 (21 + length (w_port w) + length (w_station w)).
Definition wanted_ok (w : wanted) : Prop := (length (w_port w) <= 255)%nat /\ (length (w_station w) <= 240)%nat.
Definition inner_len (w : wanted) : Z := 7 + blen (w_port w) + blen (w_station w).
Definition e_check (be : bool) (slot subslot : Z) (w : wanted) : list Z :=
  repeat 0 2 ++ e16 be slot ++ e16 be subslot ++ (e16 be 522 ++ e16 be (inner_len w) ++ [1; 0]) ++ [1] ++ [blen (w_port w)] ++ w_port w ++ [blen (w_station w)] ++ w_station w ++
  repeat 0 (pad_to (21 + length (w_port w) + length (w_station w))).
Lemma e_check_length : forall be slot subslot w, (6 + length (e_check be slot subslot w) = check_size w)%nat.
Proof. intros. unfold e_check, check_size. rewrite !app_length, !e16_length, !repeat_length. cbn [length]. unfold pad_to. destruct (up4_spec (21 + length (w_port w) + length (w_station w))). lia. Qed.
Lemma check_size_bound : forall w, wanted_ok w -> (21 <= check_size w <= 600)%nat.
Proof. intros w (A & B). unfold check_size. destruct (up4_spec (21 + length (w_port w) + length (w_station w))). lia. Qed.
Lemma enc_check : forall fuel be slot subslot w, (3 <= fuel)%nat -> u16_ok slot -> u16_ok subslot -> wanted_ok w ->
  enc (put_check fuel be slot subslot w) (eblock be 512 (e_check be slot subslot w)).
Proof.
  intros fuel be slot subslot w F A B O. pose proof (e_check_length be slot subslot w) as L. pose proof (check_size_bound w O) as SB. destruct O as (O1 & O2).
  apply enc_here. intros pos P b len LB M N. unfold put_check. cbn [w_pos]. refine (here_block pos be 512 _ _ P _ _ _ b len LB M N); [lia|lia|]. unfold e_check, u16_ok in *.
  apply here_seq; [lia|apply here_of; [lia|apply (enc_padding 2)]|]. do 2 (apply here_seq; [lia|apply here_of; [lia|apply enc_u16; lia]|]).
  apply here_seq; [lia|apply here_of; [lia|]|].
  { replace (inner_len w) with (5 + blen (w_port w) + blen (w_station w) + 2) by (unfold inner_len; lia). apply enc_header; unfold byte, blen; lia. }
  apply here_seq; [lia|apply here_of; [lia|apply enc_byte; unfold byte; lia]|].
  apply here_seq; [lia|apply here_of; [lia|apply enc_blen; lia]|]. apply here_seq; [lia|apply here_of; [lia|apply enc_mem]|].
  apply here_seq; [lia|apply here_of; [lia|apply enc_blen; lia]|]. apply here_seq; [lia|apply here_of; [lia|apply enc_mem]|].
  apply here_align; [exact F|exact P|]. rewrite !app_length, !e16_length, repeat_length. cbn [length]. lia.
Qed.
Lemma dec_check : forall slot subslot w, u16_ok slot -> u16_ok subslot -> wanted_ok w ->
  dec true true get_check (eblock true 512 (e_check true slot subslot w)) (bh 512 (check_size w), (slot, subslot), mkBhead 522 (inner_len w) 1 0, [w]).
Proof.
  intros slot subslot w A B O. pose proof (e_check_length true slot subslot w) as L. pose proof (check_size_bound w O) as SB. destruct O as (O1 & O2).
  unfold get_check. apply dec_one; [lia|lia|]. replace (2 + Z.of_nat (length (e_check true slot subslot w))) with (Z.of_nat (check_size w) - 4) by lia. unfold e_check, u16_ok in *.
  apply (dec_bind _ _ true true true _ _ (repeat 0 2) _ (repeat 0 2)); [apply zeros_dec|]. do 2 (eapply dec_bind; [apply dec_u16; lia|]).
  eapply dec_bind; [apply dec_header; unfold inner_len, blen; lia|]. eapply dec_bind; [apply dec_byte|]. cbn beta.
  replace ([blen (w_port w)] ++ w_port w ++ [blen (w_station w)] ++ w_station w ++ repeat 0 (pad_to (21 + length (w_port w) + length (w_station w))))
    with (([blen (w_port w)] ++ w_port w ++ [blen (w_station w)] ++ w_station w) ++ repeat 0 (pad_to (21 + length (w_port w) + length (w_station w)))) by (rewrite <- !app_assoc; reflexivity).
  eapply dec_bind.
  - change (Z.to_nat 1) with 1%nat. cbn [rlist]. rewrite <- (app_nil_r ([blen (w_port w)] ++ w_port w ++ [blen (w_station w)] ++ w_station w)). eapply dec_bind.
    + rewrite app_assoc. eapply dec_bind; [apply dec_named; lia|]. cbn beta. eapply dec_last; [apply dec_named; lia|]. reflexivity.
    + cbn beta. eapply dec_last; [apply dec_ret|]. reflexivity.
  - cbn beta. cbn [map list_sum fold_right w_port w_station]. replace (19 + (2 + length (w_port w) + length (w_station w) + 0))%nat with (21 + length (w_port w) + length (w_station w))%nat by lia.
    eapply dec_last; [apply pad4_dec|]. destruct w; reflexivity.
Qed.
Lemma dec_peers : forall k w, 1 <= k -> wanted_ok w -> dec true true get_peers ([k] ++ [blen (w_port w)] ++ w_port w ++ [blen (w_station w)] ++ w_station w) [w].
Proof.
  intros k w K (O1 & O2). unfold get_peers. eapply dec_bind; [apply dec_byte|]. cbn beta. replace (Z.to_nat (if 1 <? k then 1 else k)) with 1%nat by (destruct (Z.ltb_spec 1 k); lia).
  intros pre post len L M N. cbn [fill Nat.leb]. revert pre post len L M N.
  eapply dec_last; [apply get_wanted_dec; assumption|]. destruct w; reflexivity.
Qed.

(** C123: a record with wanted peers, whatever its header, slot, subslot and padding are, is
    accepted, and from then on reading tells the first of its peers.  Partial: the other
    peers are dropped and the length of the inner block is not right, see below. *)
Theorem C123_check_back_partial : forall turns fuel d api slot p head pre s ss len vh vl k w post, (3 <= fuel)%nat -> 1 <= p <= v_n d -> v_n d <= 255 ->
  opening_ok head pre s ss 522 len -> 1 <= k <= 255 -> wanted_ok w ->
  let record := opening head pre s ss 522 len vh vl ++ [k] ++ [blen (w_port w)] ++ w_port w ++ [blen (w_station w)] ++ w_station w ++ post in
  Z.of_nat (length record) < 65536 ->
  exists d' r, pd_write_record d slot (32768 + p) 32811 record = Ok (d', true) /\ pd_read turns fuel d' api 0 (32768 + p) 32811 = (true, r) /\
    round_trip true true r get_check (bh 512 (check_size w), (0, 32768 + p), mkBhead 522 (inner_len w) 1 0, [w]) (check_size w).
Proof.
  intros turns fuel d api slot p head pre s ss len vh vl k w post F P N (H1 & H2 & H3 & H4 & H5 & H6) K O record LR.
  exists (set_check d p w), (put_check fuel true 0 (32768 + p) w). split; [|split].
  - unfold pd_write_record. rewrite write_port by exact P. cbn [Z.eqb Pos.eqb]. unfold record in *. rewrite opening_skip by exact H1. unfold opening in LR. rewrite <- app_assoc, app_length, H1 in LR. unfold write_check.
    set (a := pre ++ e16 true s ++ e16 true ss ++ e16 true 522 ++ e16 true len ++ [vh; vl]) in *.
    set (c := [k] ++ [blen (w_port w)] ++ w_port w ++ [blen (w_station w)] ++ w_station w).
    replace ([k] ++ [blen (w_port w)] ++ w_port w ++ [blen (w_station w)] ++ w_station w ++ post) with (c ++ post) in * by (unfold c; rewrite <- !app_assoc; reflexivity).
    rewrite (run_dec _ _ a (mkBhead 522 len vh vl)) by (first [apply dec_opening; assumption|lia]). cbn [obind b_type Z.eqb Pos.eqb].
    assert (D : dec true true get_peers c [w]) by (apply dec_peers; [lia|exact O]). clearbody a c. rewrite (D a post) by (unfold blen; rewrite ?app_length in *; lia). cbn [obind r_res is_ok]. reflexivity.
  - unfold pd_read. cbn [v_n set_check]. destruct (subslot_port (v_n d) p P) as (E1 & E2). rewrite E1, E2. cbn [Z.eqb Pos.eqb v_check set_check]. rewrite Z.eqb_refl. reflexivity.
  - replace (check_size w) with (length (eblock true 512 (e_check true 0 (32768 + p) w))) at 2 by (rewrite eblock_length; apply e_check_length).
    apply rt_of; [apply enc_check; try assumption; unfold u16_ok; lia|]. apply dec_check; [unfold u16_ok; lia|unfold u16_ok; lia|exact O].
Qed.
Print Assumptions C123_check_back_partial.

(** PDPortDataAdjust with one PeerToPeerBoundary, and PDInterfaceAdjust: the records as a
    controller that follows the standard writes them. *)
Definition adjust_record (subslot bits props : Z) : list Z :=
  eblock true 514 (repeat 0 2 ++ e16 true 0 ++ e16 true subslot ++ eblock true 548 (repeat 0 2 ++ e32 true bits ++ e16 true props ++ repeat 0 2)).
Definition mode_record (mode : Z) : list Z := eblock true 592 (repeat 0 2 ++ e32 true mode).

Lemma dec_boundary : forall pre v props, length pre = 2%nat -> u32_ok v -> u16_ok props ->
  dec true true get_boundary (pre ++ e32 true v ++ e16 true props) (mkBoundary (get_bits v 0 1) (get_bits v 1 1) (get_bits v 2 1) props).
Proof.
  intros pre v props L V P. unfold get_boundary, u32_ok, u16_ok in *. eapply dec_bind; [apply dec_into; [rewrite L; reflexivity|lia]|].
  eapply dec_bind; [apply dec_u32; lia|]. eapply dec_last; [apply dec_u16; lia|]. reflexivity.
Qed.
Lemma three : forall v, u32_ok v ->
  put_bits (get_bits v 2 1) 1 2 (put_bits (get_bits v 1 1) 1 1 (put_bits (get_bits v 0 1) 1 0 0)) = v mod 8.
Proof.
  intros v V. unfold u32_ok in V. rewrite !get_bits_val by lia. change (2 ^ 0) with 1. change (2 ^ 1) with 2. change (2 ^ 2) with 4. rewrite Z.div_1_r.
  assert (E : v mod 8 = v mod 2 + 2 * ((v / 2) mod 2) + 4 * ((v / 4) mod 2)).
  { change (v mod 8) with (v mod (2 * 4)). rewrite (Z.rem_mul_r v 2 4) by lia. change ((v / 2) mod 4) with ((v / 2) mod (2 * 2)). rewrite (Z.rem_mul_r (v / 2) 2 2) by lia. rewrite Z.div_div by lia. change (2 * 2) with 4. lia. }
  rewrite E. pose proof (Z.mod_pos_bound v 2 ltac:(lia)). pose proof (Z.mod_pos_bound (v / 2) 2 ltac:(lia)). pose proof (Z.mod_pos_bound (v / 4) 2 ltac:(lia)).
  set (a := v mod 2) in *. set (b := (v / 2) mod 2) in *. set (c := (v / 4) mod 2) in *. clearbody a b c.
  assert (A : a = 0 \/ a = 1) by lia. assert (B : b = 0 \/ b = 1) by lia. assert (C : c = 0 \/ c = 1) by lia.
  destruct A as [-> | ->], B as [-> | ->], C as [-> | ->]; reflexivity.
Qed.

(** C123: boundaries that were written are read back byte for byte (of the boundaries, those
    that are known); in particular the record itself if it follows the standard. *)
Theorem C123_adjust_back : forall turns fuel d api slot p head pre s ss len vh vl pre2 v props post, 1 <= p <= v_n d -> v_n d <= 255 ->
  opening_ok head pre s ss 548 len -> length pre2 = 2%nat -> u32_ok v -> u16_ok props ->
  let record := opening head pre s ss 548 len vh vl ++ pre2 ++ e32 true v ++ e16 true props ++ post in
  Z.of_nat (length record) < 65536 ->
  exists d' r, pd_write_record d slot (32768 + p) 32815 record = Ok (d', true) /\ pd_read turns fuel d' api 0 (32768 + p) 32815 = (true, r) /\
    enc r (adjust_record (32768 + p) (v mod 8) props).
Proof.
  intros turns fuel d api slot p head pre s ss len vh vl pre2 v props post P N (H1 & H2 & H3 & H4 & H5 & H6) L2 V Q record LR.
  set (y := mkBoundary (get_bits v 0 1) (get_bits v 1 1) (get_bits v 2 1) props).
  exists (set_adjust d p y), (put_adjust true (32768 + p) y). split; [|split].
  - unfold pd_write_record. rewrite write_port by exact P. cbn [Z.eqb Pos.eqb]. unfold record in *. rewrite opening_skip by exact H1. unfold opening in LR. rewrite <- app_assoc, app_length, H1 in LR. unfold write_adjust.
    set (a := pre ++ e16 true s ++ e16 true ss ++ e16 true 548 ++ e16 true len ++ [vh; vl]) in *.
    replace (pre2 ++ e32 true v ++ e16 true props ++ post) with ((pre2 ++ e32 true v ++ e16 true props) ++ post) in * by (rewrite <- !app_assoc; reflexivity).
    rewrite (run_dec _ _ a (mkBhead 548 len vh vl)) by (first [apply dec_opening; assumption|lia]). cbn [obind b_type Z.eqb Pos.eqb].
    pose proof (dec_boundary pre2 v props L2 V Q) as D. fold y in D. set (c := pre2 ++ e32 true v ++ e16 true props) in *. clearbody a c. rewrite (D a post) by (unfold blen; rewrite ?app_length in *; lia). cbn [obind fst snd r_res is_ok]. reflexivity.
  - unfold pd_read. cbn [v_n set_adjust]. destruct (subslot_port (v_n d) p P) as (E1 & E2). rewrite E1, E2. cbn [Z.eqb Pos.eqb andb v_adjust set_adjust]. rewrite Z.eqb_refl. reflexivity.
  - unfold put_adjust, adjust_record, u16_ok, u32_ok in *. pose proof (Z.mod_pos_bound v 8 ltac:(lia)). apply enc_block; [lia|rewrite !app_length, !e16_length, eblock_length, !app_length, e16_length, e32_length; cbn [length repeat]; lia|].
    apply enc_seq; [apply (enc_padding 2)|]. do 2 (apply enc_seq; [apply enc_u16; lia|]). unfold put_boundary. cbn [y bd_lldp bd_ptcp bd_path bd_props].
    apply enc_block; [lia|rewrite !app_length, !e16_length, e32_length; cbn [length repeat]; lia|]. rewrite three by exact V.
    apply enc_seq; [apply (enc_padding 2)|]. apply enc_seq; [apply enc_u32; lia|]. apply enc_seq; [apply enc_u16; lia|]. apply (enc_padding 2).
Qed.
Print Assumptions C123_adjust_back.
Corollary C123_adjust_same : forall turns fuel d api slot p bits props, 1 <= p <= v_n d -> v_n d <= 255 -> 0 <= bits < 8 -> u16_ok props ->
  exists d' r, pd_write_record d slot (32768 + p) 32815 (adjust_record (32768 + p) bits props) = Ok (d', true) /\
    pd_read turns fuel d' api 0 (32768 + p) 32815 = (true, r) /\ enc r (adjust_record (32768 + p) bits props).
Proof.
  intros turns fuel d api slot p bits props P N B Q.
  destruct (C123_adjust_back turns fuel d api slot p (e16 true 514 ++ e16 true 24 ++ [1; 0]) [0; 0] 0 (32768 + p) 12 1 0 [0; 0] bits props [0; 0] P N) as (d' & r & A & R & E).
  - unfold opening_ok, u16_ok. rewrite !app_length, !e16_length. repeat split; lia.
  - reflexivity.
  - unfold u32_ok. lia.
  - exact Q.
  - unfold opening. rewrite !app_length, !e16_length, e32_length. cbn [length]. lia.
  - exists d', r. rewrite Z.mod_small in E by lia. split; [exact A|]. split; [exact R|exact E].
Qed.
Print Assumptions C123_adjust_same.

(** C123: the naming mode that was written is read back. *)
Theorem C123_mode_back : forall turns fuel d api slot head pre v post, (1 <= fuel)%nat -> length head = 6%nat -> length pre = 2%nat -> u32_ok v ->
  let record := head ++ pre ++ e32 true v ++ post in Z.of_nat (length record) < 65536 ->
  exists d' r, pd_write_record d slot 32768 32881 record = Ok (d', true) /\ pd_read turns fuel d' api 0 32768 32881 = (true, r) /\ enc r (mode_record (v mod 2)).
Proof.
  intros turns fuel d api slot head pre v post F H1 H2 V record LR. exists (set_mode d (v mod 2)), (put_mode fuel true (v mod 2)). unfold u32_ok in V. split; [|split].
  - unfold pd_write_record, pd_write. change (subslot_to_port (v_n d) 32768) with 0. cbn [Z.ltb Z.compare Z.eqb Pos.eqb]. unfold record in *. rewrite skipn_app, <- H1, skipn_all, Nat.sub_diag. cbn [skipn app].
    replace (pre ++ e32 true v ++ post) with ((pre ++ e32 true v) ++ post) in * by (rewrite <- !app_assoc; reflexivity). unfold write_mode. rewrite app_length in LR.
    rewrite (run_dec _ get_interface_adjust (pre ++ e32 true v) (v mod 2)) by first [lia|unfold get_interface_adjust; eapply dec_bind; [apply dec_into; [rewrite H2; reflexivity|lia]|]; eapply dec_last; [apply dec_u32; lia|]; rewrite get_bits_val by lia; change (2 ^ 0) with 1; rewrite Z.div_1_r; reflexivity].
    cbn [obind fst]. reflexivity.
  - reflexivity.
  - apply enc_here. intros pos P b len LB M N. unfold put_mode. cbn [w_pos]. unfold mode_record in *. pose proof (Z.mod_pos_bound v 2 ltac:(lia)).
    refine (here_block pos true 592 _ _ P _ _ _ b len LB M N); [lia|rewrite app_length, e32_length; cbn [length repeat]; lia|].
    replace (put_bits (v mod 2) 1 0 0) with (v mod 2) by (assert (X : v mod 2 = 0 \/ v mod 2 = 1) by lia; destruct X as [-> | ->]; reflexivity).
    apply here_seq; [lia|apply here_of; [lia|apply (enc_padding 2)]|]. rewrite <- (app_nil_r (e32 true (v mod 2))). apply here_seq; [lia|apply here_of; [lia|apply enc_u32; lia]|].
    rewrite repeat_length, e32_length. intros b1 len1 LB1 M1 N1. unfold align. destruct fuel as [|fuel]; [lia|]. cbn [put_padding_align w_pos].
    replace (pos + 6 + Z.of_nat 2 + Z.of_nat 4 - pos) with 12 by lia. change (Z.rem 12 4 =? 0) with true. cbv iota. cbn [length]. rewrite Z.add_0_r. f_equal. f_equal. f_equal. unfold put_at. cbn [app length]. rewrite Nat.add_0_r. symmetry. apply firstn_skipn.
Qed.
Print Assumptions C123_mode_back.

(** * What a write changes *)

Definition ports_same (d d' : pdev) : Prop :=
  v_n d' = v_n d /\ v_name d' = v_name d /\ v_peer d' = v_peer d /\ v_link d' = v_link d /\ v_default d' = v_default d /\ v_stat d' = v_stat d /\
  v_mac d' = v_mac d /\ v_ip d' = v_ip d /\ v_mask d' = v_mask d /\ v_gate d' = v_gate d /\ v_station d' = v_station d.
Lemma real_all_same : forall d d' turns fuel api p i, ports_same d d' -> real_all turns fuel d' api p i = real_all turns fuel d api p i.
Proof.
  intros d d' turns fuel api p i (A & B & C & D & E & F & _). revert p i. induction turns as [|t IH]; intros p i; [reflexivity|]. cbn [real_all]. rewrite IH.
  unfold filtered, stats_or_0. rewrite A, B, C, D, E, F. reflexivity.
Qed.
Lemma write_shape : forall d slot subslot index bytes d' ok, pd_write d slot subslot index bytes = Ok (d', ok) ->
  (ok = false /\ d' = d) \/
  (ok = true /\ ((index = 32811 /\ exists w, d' = set_check d (subslot_to_port (v_n d) subslot) w) \/
                 (index = 32815 /\ exists y, d' = set_adjust d (subslot_to_port (v_n d) subslot) y) \/
                 (index = 32881 /\ subslot_to_port (v_n d) subslot = 0 /\ exists m, d' = set_mode d m))).
Proof.
  intros d slot subslot index bytes d' ok H. unfold pd_write in H. destruct (Z.ltb_spec 0 (subslot_to_port (v_n d) subslot)) as [Q|Q].
  - destruct (Z.eqb_spec index 32811) as [->|].
    + unfold write_check in H. destruct (get_port_data _) as [[h r]| |]; cbn [obind] in H; try discriminate. destruct (b_type h =? 522); [|injection H as <- <-; left; auto].
      destruct (get_peers r) as [[[|w l] r']| |]; cbn [obind] in H; try discriminate; [injection H as <- <-; left; auto|]. destruct (is_ok (r_res r')); injection H as <- <-; [right; split; [reflexivity|left; split; [reflexivity|exists w; reflexivity]]|left; auto].
    + destruct (Z.eqb_spec index 32815) as [->|]; [|injection H as <- <-; left; auto].
      unfold write_adjust in H. destruct (get_port_data _) as [[h r]| |]; cbn [obind] in H; try discriminate. destruct (b_type h =? 548); [|injection H as <- <-; left; auto].
      destruct (get_boundary r) as [[y r']| |]; cbn [obind fst snd] in H; try discriminate. destruct (is_ok (r_res r')); injection H as <- <-; [right; split; [reflexivity|right; left; split; [reflexivity|exists y; reflexivity]]|left; auto].
  - destruct (Z.eqb_spec index 32881) as [->|]; [|injection H as <- <-; left; auto]. unfold write_mode in H. destruct (get_interface_adjust _) as [[y r']| |]; cbn [obind fst] in H; try discriminate.
    injection H as <- <-. right. split; [reflexivity|]. right. right. split; [reflexivity|]. split; [|exists y; reflexivity].
    unfold subslot_to_port in *. destruct (port_valid (v_n d) (1 + subslot - 32769)) eqn:PV; [|reflexivity]. unfold port_valid in PV. apply andb_prop in PV. destruct PV as (PV & _). apply Z.ltb_lt in PV. lia.
Qed.

(** C123: a write that fails changes nothing.  One that succeeds changes the record with that
    number of that port, and the record of the wanted peers of all ports; no other read
    notices it. *)
Theorem C123_frame : forall d slot subslot index record d' ok, pd_write_record d slot subslot index record = Ok (d', ok) ->
  (ok = false -> d' = d) /\
  forall turns fuel api slot' subslot' index',
    index' <> index \/ (subslot' <> 0 /\ subslot_to_port (v_n d) subslot' <> subslot_to_port (v_n d) subslot) ->
    pd_read turns fuel d' api slot' subslot' index' = pd_read turns fuel d api slot' subslot' index'.
Proof.
  intros d slot subslot index record d' ok H. apply (write_shape d slot) in H. destruct H as [(-> & ->)|(-> & H)]; [split; auto|]. split; [discriminate|].
  intros turns fuel api slot' subslot' index' X.
  assert (PS : ports_same d d') by (destruct H as [(_ & w & ->)|[(_ & w & ->)|(_ & _ & w & ->)]]; unfold ports_same; cbn; repeat split).
  pose proof PS as (A & B & C & D & E & F & G1 & G2 & G3 & G4 & G5). unfold pd_read. rewrite A, B, C, F, G1, G2, G3, G4, G5. unfold filtered, stats_or_0. rewrite D, E, F.
  rewrite (real_all_same d d') by exact PS.
  destruct (index' =? 32810); [reflexivity|].
  destruct (Z.eqb_spec index' 32815) as [->|N1].
  { destruct ((slot' =? 0) && subslot_is_port (v_n d) subslot'); [|reflexivity]. destruct H as [(-> & w & ->)|[(-> & y & ->)|(-> & Z0 & m & ->)]]; cbn [v_adjust set_check set_adjust set_mode]; try reflexivity.
    destruct (Z.eqb_spec (subslot_to_port (v_n d) subslot') (subslot_to_port (v_n d) subslot)); [|reflexivity]. destruct X as [X|(_ & X)]; congruence. }
  destruct (Z.eqb_spec index' 32811) as [->|N2].
  { destruct (slot' =? 0); [|reflexivity]. destruct H as [(-> & w & ->)|[(-> & y & ->)|(-> & Z0 & m & ->)]].
    - destruct X as [X|(X0 & X)]; [congruence|]. destruct (Z.eqb_spec subslot' 0); [contradiction|]. destruct (subslot_is_port (v_n d) subslot'); [|reflexivity]. cbn [v_check set_check].
      destruct (Z.eqb_spec (subslot_to_port (v_n d) subslot') (subslot_to_port (v_n d) subslot)); [congruence|reflexivity].
    - assert (CA : forall p, check_all turns fuel (set_adjust d (subslot_to_port (v_n d) subslot) y) slot' subslot' p = check_all turns fuel d slot' subslot' p)
        by (induction turns as [|t IH]; intros p; [reflexivity|]; cbn [check_all]; rewrite IH; reflexivity). rewrite CA. reflexivity.
    - assert (CA : forall p, check_all turns fuel (set_mode d m) slot' subslot' p = check_all turns fuel d slot' subslot' p)
        by (induction turns as [|t IH]; intros p; [reflexivity|]; cbn [check_all]; rewrite IH; reflexivity). rewrite CA. reflexivity. }
  destruct (index' =? 63553); [reflexivity|]. destruct (index' =? 63554); [reflexivity|]. destruct (index' =? 32882); [reflexivity|].
  destruct (Z.eqb_spec index' 32881) as [->|N3]; [|reflexivity].
  destruct (Z.eqb_spec slot' 0); [|reflexivity]. destruct (Z.eqb_spec subslot' 32768) as [->|]; [|reflexivity]. cbn [andb].
  destruct H as [(-> & w & ->)|[(-> & y & ->)|(-> & Z0 & m & ->)]]; cbn [v_mode set_check set_adjust set_mode]; try reflexivity.
  exfalso. destruct X as [X|(_ & X)]; [congruence|]. apply X. rewrite Z0. reflexivity.
Qed.
Print Assumptions C123_frame.

(** * Nothing outside the response *)

Lemma con_align_at : forall fuel start, contained (align fuel start).
Proof.
  intros fuel start. unfold align. induction fuel as [|fuel IH]; intros b len pos P L N; cbn [put_padding_align w_pos]; destruct (Z.rem (pos - start) 4 =? 0);
    try (right; exists b, pos; repeat split; auto; lia); [left; reflexivity|].
  destruct (inside_byte 0 b len pos P L N) as (b1 & p1 & E1 & Q1 & L1 & K1). rewrite E1.
  destruct (IH b1 len p1 ltac:(lia) ltac:(lia) N) as [E|(b2 & p2 & E2 & Q2 & L2 & K2)]; [left; exact E|]. right.
  exists b2, p2. split; [exact E2|]. split; [lia|]. split; [congruence|]. intros i Hi. rewrite K2 by lia. apply K1. exact Hi.
Qed.
Lemma con_block : forall be ty body, contained body -> contained (put_block be ty body).
Proof.
  intros be ty body B b len pos P L N. unfold put_block. cbn [w_pos].
  assert (H1 : contained (put_block_header be ty 0 1 0 ;; body)).
  { apply con_seq; [|exact B]. apply con_of. unfold put_block_header.
    apply inside_seq; [apply inside_u16|]. apply inside_seq; [apply inside_u16|]. apply inside_seq; apply inside_byte. }
  assert (X : (put_block_header be ty 0 1 0 ;; body ;; put_block_len be pos) (mkWr (Some b) len pos)
    = do w <- (put_block_header be ty 0 1 0 ;; body) (mkWr (Some b) len pos); put_block_len be pos w).
  { unfold wseq. destruct (put_block_header be ty 0 1 0 (mkWr (Some b) len pos)); reflexivity. }
  rewrite X. destruct (H1 b len pos P L N) as [E|(b1 & p1 & E1 & Q1 & L1 & K1)]; [left; rewrite E; reflexivity|].
  rewrite E1. cbn [obind]. unfold put_block_len. cbn [w_buf w_len w_pos]. rewrite (u16_id (pos + 2)) by lia. right.
  set (v := u16 (p1 - (pos + 4))). clearbody v.
  destruct (Z.le_gt_cases (pos + 2) len) as [H|H].
  - destruct (inside_u16 be v b1 len (pos + 2) ltac:(lia) ltac:(lia) N) as (b2 & p2 & E2 & Q2 & L2 & K2).
    rewrite E2. cbn [obind w_buf w_len]. exists b2, p1. split; [reflexivity|]. split; [lia|]. split; [congruence|].
    intros i Hi. rewrite K2 by lia. apply K1. exact Hi.
  - assert (E2 : put_u16 be v (mkWr (Some b1) len (pos + 2)) = Ok (mkWr (Some b1) len (pos + 2))).
    { assert (Y : forall x, put_byte x (mkWr (Some b1) len (pos + 2)) = Ok (mkWr (Some b1) len (pos + 2))).
      { intros x. unfold put_byte. cbn [w_len w_pos]. destruct (Z.ltb_spec len (pos + 2 + 1)); [reflexivity|lia]. }
      unfold put_u16, wseq. destruct be; rewrite Y; cbn [obind]; apply Y. }
    rewrite E2. cbn [obind w_buf w_len]. exists b1, p1. repeat split; auto; lia.
Qed.
Lemma con_put_block_header : forall be ty len vh vl, contained (put_block_header be ty len vh vl).
Proof. intros. apply con_of. unfold put_block_header. apply inside_seq; [apply inside_u16|]. apply inside_seq; [apply inside_u16|]. apply inside_seq; apply inside_byte. Qed.
Ltac con := repeat match goal with
  | |- contained (wseq _ _) => apply con_seq
  | |- contained (align _ _) => apply con_align_at
  | |- contained (put_block_header _ _ _ _ _) => apply con_put_block_header
  | |- contained (put_block _ _ _) => apply con_block
  | |- contained (put_byte _) => apply con_of, inside_byte
  | |- contained (put_u16 _ _) => apply con_of, inside_u16
  | |- contained (put_u32 _ _) => apply con_of, inside_u32
  | |- contained (put_mem _) => apply con_of, inside_mem
  | |- contained (put_padding _) => apply con_of, inside_padding
  | |- contained wskip => apply con_of, inside_skip
  end.
Lemma con_check : forall fuel be s ss w, contained (put_check fuel be s ss w).
Proof.
  intros fuel be s ss w b len pos P L N. unfold put_check. cbn [w_pos].
  match goal with |- ?f _ = _ \/ _ => assert (G : contained f) by con; exact (G b len pos P L N) end.
Qed.
Lemma con_peer : forall fuel be start o, contained (put_peer fuel be start o).
Proof. intros fuel be start [q|]; unfold put_peer; con. Qed.
Lemma con_real : forall fuel be ss name o k m, contained (put_real fuel be ss name o k m).
Proof.
  intros fuel be ss name o k m b len pos P L N. unfold put_real. cbn [w_pos]. pose proof (con_peer fuel be pos o) as C.
  match goal with |- ?f _ = _ \/ _ => assert (G : contained f) by (con; exact C); exact (G b len pos P L N) end.
Qed.
Lemma con_intf : forall fuel be mac ip mask gate name, contained (put_intf fuel be mac ip mask gate name).
Proof.
  intros fuel be mac ip mask gate name b len pos P L N. unfold put_intf. cbn [w_pos].
  match goal with |- ?f _ = _ \/ _ => assert (G : contained f) by con; exact (G b len pos P L N) end.
Qed.
Lemma con_mode : forall fuel be m, contained (put_mode fuel be m).
Proof.
  intros fuel be m b len pos P L N. unfold put_mode. cbn [w_pos].
  match goal with |- ?f _ = _ \/ _ => assert (G : contained f) by con; exact (G b len pos P L N) end.
Qed.
Lemma con_stats : forall be x, contained (put_stats be x).
Proof. intros. unfold put_stats. con. Qed.
Lemma con_check_all : forall turns fuel d s ss p, contained (check_all turns fuel d s ss p).
Proof.
  induction turns as [|t IH]; intros fuel d s ss p; cbn [check_all]; [intros b len pos P L N; left; reflexivity|]. destruct (p =? 0); [con|]. apply con_seq; [|apply IH].
  destruct (v_check d p); [apply con_check|con].
Qed.
Lemma con_real_all : forall turns fuel d api p i, contained (real_all turns fuel d api p i).
Proof.
  induction turns as [|t IH]; intros fuel d api p i; cbn [real_all]; [intros b len pos P L N; left; reflexivity|]. destruct (p =? 0); [con|]. apply con_seq; [|apply IH].
  unfold port_to_subslot. intros b len pos P L N. destruct (port_valid (v_n d) p); cbn [obind]; [|left; reflexivity].
  match goal with |- ?f (mkWr _ _ _) = _ \/ _ => assert (G : contained f) by (unfold put_multi_port; apply con_block; do 4 (apply con_seq; [con|]); apply con_seq; [apply con_real|apply con_stats]); exact (G b len pos P L N) end.
Qed.

(** C123: whatever the size of the response is, a read writes inside it or never ends (the
    model's AssertFail, see C123_hang_refuted). *)
Theorem C123_inside : forall turns fuel d api slot subslot index, contained (snd (pd_read turns fuel d api slot subslot index)).
Proof.
  intros turns fuel d api slot subslot index. unfold pd_read.
  repeat match goal with
  | |- context [if ?c then _ else _] => destruct c
  | |- context [match ?o with Some _ => _ | None => _ end] => destruct o
  end; cbn [snd]; try apply con_real; try apply con_check; try apply con_stats; try apply con_intf; try apply con_mode; try apply con_check_all; try solve [con].
  - unfold put_adjust, put_boundary. con.
  - apply con_seq; [|apply con_real_all]. unfold put_multi_intf. apply con_block. do 4 (apply con_seq; [con|]). apply con_seq; [apply con_intf|apply con_stats].
Qed.
Print Assumptions C123_inside.

(** * Findings, and an example *)

Definition ex_pd : pdev := mkPdev 2 (fun p => [112; 111; 114; 116; 45; 48; 48; 48 + p])
  (fun p => if p =? 1 then Some (mkSeen [112; 49] [115; 119] 77 [1; 2; 3; 4; 5; 6]) else None)
  (fun p => if p =? 1 then mkLink 16 true else mkLink 0 false) (fun _ => 30) (fun _ => None) (fun _ => None) (fun p => if p =? 2 then None else Some (mkStats 1 2 3 4 5 6))
  (Some 1) [2; 0; 0; 0; 0; 9] 3232235777 4294967040 0 [100; 101; 118].
Example C123_example : 1 <= v_n ex_pd <= 255 /\ intf_ok ex_pd /\ (forall p, 1 <= p <= v_n ex_pd -> port_ok ex_pd p) /\ device_size ex_pd = 284%nat /\
  told_real ex_pd 1 = mkReal 0 32769 [112; 111; 114; 116; 45; 48; 48; 49] [mkSeen [112; 49] [115; 119] 77 [1; 2; 3; 4; 5; 6]] 16 0 0 0 1 1 /\
  told_real ex_pd 2 = mkReal 0 32770 [112; 111; 114; 116; 45; 48; 48; 50] [] 30 0 0 0 2 1 /\ told_stats ex_pd 2 = mkStats 0 0 0 0 0 0.
Proof.
  assert (I : forall p x, v_stat ex_pd p = Some x -> stats_ok x) by (intros p x E; cbn in E; destruct (p =? 2); [discriminate|]; injection E as <-; unfold stats_ok, u32_ok; cbn; lia).
  split; [cbn; lia|]. split; [unfold intf_ok; split; [cbn; lia|]; split; [reflexivity|]; split; [unfold u32_ok; cbn; lia|]; split; [unfold u32_ok; cbn; lia|]; split; [unfold u32_ok; cbn; lia|apply (I 0)]|]. split; [|vm_compute; repeat split].
  intros p P. unfold port_ok. split; [cbn; lia|]. split; [|split; [|split; [|apply I]]].
  - intros q E. cbn in E. destruct (p =? 1); [|discriminate]. injection E as <-. unfold seen_ok, u32_ok; cbn; lia.
  - cbn. destruct (p =? 1); cbn; unfold u16_ok; lia.
  - cbn. unfold u16_ok; lia.
Qed.

(** Finding: two peers are accepted, one is kept. *)
Definition two_peers : list Z := e16 true 512 ++ e16 true 28 ++ [1; 0] ++ [0; 0] ++ e16 true 0 ++ e16 true 32769 ++ e16 true 522 ++ e16 true 11 ++ [1; 0] ++
  [2] ++ [1; 65; 1; 66] ++ [1; 67; 1; 68] ++ [0; 0; 0].
Definition peers_of (m : outcome wr) : list wanted :=
  match m with Ok (mkWr (Some b) len _) => match get_check (mkRd (Some b) len true POk 0) with Ok (_, _, _, l, _) => l | _ => [] end | _ => [] end.
Theorem C123_peers_refuted : exists d',
  pd_write_record ex_pd 0 32769 32811 two_peers = Ok (d', true) /\ peers_of (Ok (mkWr (Some two_peers) 32 0)) = [mkWanted [65] [66]; mkWanted [67] [68]] /\
  peers_of (snd (pd_read 5 5 d' 0 0 32769 32811) (mkWr (Some (repeat 0 100)) 100 0)) = [mkWanted [65] [66]].
Proof. eexists. split; [vm_compute; reflexivity|]. split; vm_compute; reflexivity. Qed.
Print Assumptions C123_peers_refuted.

(** Finding: the length of the inner block is two more than its content, so that the inner
    block ends after the outer one whenever the names leave at most one byte of padding.
    (The inner block starts at byte 12; its length counts from byte 16.) *)
Theorem C123_check_length_refuted : forall turns fuel d api p w, (3 <= fuel)%nat -> 1 <= p <= v_n d -> v_n d <= 255 -> v_check d p = Some w -> wanted_ok w ->
  ((length (w_port w) + length (w_station w)) mod 4 = 2 \/ (length (w_port w) + length (w_station w)) mod 4 = 3)%nat ->
  exists r g, pd_read turns fuel d api 0 (32768 + p) 32811 = (true, r) /\
    round_trip true true r get_check (bh 512 (check_size w), (0, 32768 + p), g, [w]) (check_size w) /\ 12 + 4 + b_length g > Z.of_nat (check_size w).
Proof.
  intros turns fuel d api p w F P N V O H. exists (put_check fuel true 0 (32768 + p) w), (mkBhead 522 (inner_len w) 1 0). split; [|split].
  { unfold pd_read. destruct (subslot_port (v_n d) p P) as (E1 & E2). rewrite E1, E2. cbn [Z.eqb Pos.eqb]. rewrite V. reflexivity. }
  { replace (check_size w) with (length (eblock true 512 (e_check true 0 (32768 + p) w))) at 2 by (rewrite eblock_length; apply e_check_length).
    apply rt_of; [apply enc_check; try assumption; unfold u16_ok; lia|]. apply dec_check; [unfold u16_ok; lia|unfold u16_ok; lia|exact O]. }
  cbn [b_length]. unfold inner_len, check_size, blen. destruct (up4_spec (21 + length (w_port w) + length (w_station w))) as (A & B & C).
  remember (length (w_port w) + length (w_station w))%nat as n eqn:En.
  assert (D : (up4 (21 + length (w_port w) + length (w_station w)) <= 22 + n)%nat).
  { pose proof (Nat.div_mod n 4 ltac:(lia)). set (u := up4 (21 + length (w_port w) + length (w_station w))) in *. pose proof (Z.div_mod (Z.of_nat u) 4 ltac:(lia)). lia. }
  lia.
Qed.
Print Assumptions C123_check_length_refuted.
Example C123_check_length_example : let w := mkWanted [112; 49] [97; 98; 99; 100; 101] in wanted_ok w /\ check_size w = 28%nat /\ inner_len w = 14.
Proof. vm_compute. repeat split; lia. Qed.

(** Finding: an interface record that is cut off is accepted; the mode becomes 0. *)
Theorem C123_mode_short_refuted : forall d slot head, length head = 6%nat ->
  exists d', pd_write_record d slot 32768 32881 head = Ok (d', true) /\ v_mode d' = Some 0.
Proof.
  intros d slot head L. exists (set_mode d 0). split; [|reflexivity]. unfold pd_write_record. rewrite skipn_all2 by lia. reflexivity.
Qed.
Print Assumptions C123_mode_short_refuted.

(** Finding: the slot of a write is not looked at: a record written to slot 7 is the one read
    from slot 0, and there is none to read in slot 7; a subslot that does not exist is as good as
    the interface. *)
Theorem C123_slot_refuted : forall turns fuel d api subslot, subslot_to_port (v_n d) subslot = 0 ->
  exists d', pd_write_record d 7 subslot 32881 (mode_record 1) = Ok (d', true) /\ v_mode d' = Some 1 /\
    fst (pd_read turns fuel d' api 0 32768 32881) = true /\ fst (pd_read turns fuel d' api 7 32768 32881) = false.
Proof. intros turns fuel d api subslot Z0. exists (set_mode d 1). split; [|split; [|split]; reflexivity]. unfold pd_write_record, pd_write. rewrite Z0. reflexivity. Qed.
Print Assumptions C123_slot_refuted.

(** Finding: if the response ends inside the padding the read never ends. *)
Theorem C123_hang_refuted : forall turns fuel d api b, (length (v_station d) <= 240)%nat -> ((7 + length (v_station d)) mod 4 <> 0)%nat -> Z.of_nat (length b) = 7 + blen (v_station d) ->
  snd (pd_read turns fuel d api 0 32768 32896) (mkWr (Some b) (7 + blen (v_station d)) 0) = AssertFail.
Proof.
  intros turns fuel d api b L M B. change (snd (pd_read turns fuel d api 0 32768 32896)) with (put_intf fuel true (v_mac d) (v_ip d) (v_mask d) (v_gate d) (v_station d)).
  unfold put_intf, put_block, blen in *. cbn [w_pos].
  assert (EH : enc (put_block_header true 576 0 1 0) (e16 true 576 ++ e16 true (0 + 2) ++ [1; 0])) by (apply enc_header; unfold byte; lia).
  assert (LH : length (e16 true 576 ++ e16 true (0 + 2) ++ [1; 0]) = 6%nat) by reflexivity.
  unfold wseq. rewrite EH by (rewrite ?LH; lia). rewrite LH. cbn [obind]. 
  rewrite (enc_byte (Z.of_nat (length (v_station d)))); [|unfold byte; lia|lia|cbn [length]; lia|rewrite put_at_length; lia|lia]. cbn [obind length].
  rewrite enc_mem; [|lia|lia|rewrite !put_at_length; rewrite ?put_at_length; cbn [length]; lia|lia]. cbn [obind].
  unfold align. rewrite C46_no_room_never_ends; [reflexivity|lia|lia|lia| |lia|].
  - rewrite !put_at_length; rewrite ?put_at_length; rewrite ?put_at_length; cbn [length]; lia.
  - intros q Q. rewrite Z.sub_0_r. assert (q = Z.of_nat (7 + length (v_station d))) as -> by lia. change 4 with (Z.of_nat 4). rewrite <- Nat2Z.inj_mod. lia.
Qed.
Print Assumptions C123_hang_refuted.
