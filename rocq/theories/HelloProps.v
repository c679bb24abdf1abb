(** C127: the HELLO message tells who the device is. *)
From Coq Require Import List ZArith Arith Bool Lia.
From Verif Require Import Base CminaModel CminaSpec DcpModel DcpSpec DcpInv HelloModel.
Import ListNotations.
Local Open Scope Z_scope.

(** * Specification: how a receiver reads the blocks *)

(** Option, suboption, block info and value. *)
Definition told : Type := (Z * Z * Z * list Z)%type.
(** IEC 61158-6-10 DCP: option, suboption, length of the rest, block info, value and, if its length is
    odd, a byte of padding. *)
Fixpoint read_blocks (fuel : nat) (l : list Z) : option (list told) :=
  match fuel, l with
  | _, [] => Some []
  | S k, o :: s :: h :: n :: i :: j :: r =>
      let len := Z.to_nat (256 * h + n - 2) in
      if (length r <? len)%nat then None
      else match read_blocks k (skipn (if Nat.odd len then S len else len) r) with
           | Some t => Some ((o, s, 256 * i + j, firstn len r) :: t)
           | None => None
           end
  | _, _ => None
  end.
(** A whole frame: addressed to the group of HELLO messages, from [mac], with the length of the blocks. *)
Definition read_hello (f : list Z) : option (list Z * list told) :=
  match f with
  | 1 :: 14 :: 207 :: 0 :: 0 :: 1 :: a :: b :: c :: d :: e :: g :: 136 :: 146 :: 254 :: 252 :: 6 :: 0 :: x1 :: x2 :: x3 :: x4 :: 0 :: 0 :: h :: n :: r =>
      if 256 * h + n =? Z.of_nat (length r) then
        match read_blocks (length r) r with Some t => Some ([a; b; c; d; e; g], t) | None => None end
      else None
  | _ => None
  end.

(** * Reading what is written *)

Lemma read_pos : forall o s v rest k, (length v < 1000)%nat ->
  read_blocks (S k) (pos_block o s 0 v ++ rest) = match read_blocks k rest with Some t => Some ((o, s, 0, v) :: t) | None => None end.
Proof.
  intros o s v rest k L.
  assert (H : 256 * ((2 + Z.of_nat (length v)) / 256) + (2 + Z.of_nat (length v)) mod 256 - 2 = Z.of_nat (length v)) by (rewrite <- Z.div_mod by lia; lia).
  assert (E : exists p, pos_block o s 0 v = o :: s :: (2 + Z.of_nat (length v)) / 256 :: (2 + Z.of_nat (length v)) mod 256 :: 0 :: 0 :: v ++ p /\ length p = (if Nat.odd (length v) then 1 else 0)%nat).
  { unfold pos_block, even_pad, w16. change (0 / 256) with 0. change (0 mod 256) with 0. cbn [app length].
    change (Nat.odd (S (S (S (S (S (S (length v)))))))) with (Nat.odd (length v)). destruct (Nat.odd (length v)).
    - exists [0]. split; reflexivity.
    - exists []. split; [rewrite app_nil_r|]; reflexivity. }
  destruct E as (p & -> & Lp). cbn [app read_blocks]. rewrite H, Nat2Z.id. rewrite <- app_assoc.
  destruct (Nat.ltb_spec (length (v ++ p ++ rest)) (length v)) as [C|_]; [rewrite app_length in C; lia|].
  replace (skipn (if Nat.odd (length v) then S (length v) else length v) (v ++ p ++ rest)) with rest.
  - rewrite firstn_app, firstn_all, Nat.sub_diag. cbn [firstn]. rewrite app_nil_r. reflexivity.
  - rewrite app_assoc. replace (if Nat.odd (length v) then S (length v) else length v) with (length (v ++ p))%nat by (rewrite app_length, Lp; destruct (Nat.odd (length v)); lia).
    rewrite skipn_app, skipn_all, Nat.sub_diag. reflexivity.
Qed.
Lemma pos_len : forall o s v, length (pos_block o s 0 v) = (6 + length v + if Nat.odd (length v) then 1 else 0)%nat.
Proof.
  intros o s v. unfold pos_block, even_pad, w16. cbn [app length]. change (Nat.odd (S (S (S (S (S (S (length v)))))))) with (Nat.odd (length v)).
  destruct (Nat.odd (length v)); cbn [length]; rewrite ?app_length; cbn [length]; lia.
Qed.
Lemma even_block : forall o s v out, Nat.even (length out) = true -> Nat.even (length (out ++ pos_block o s 0 v)) = true.
Proof.
  intros o s v out E. rewrite app_length, pos_len, Nat.even_add, E.
  destruct (Nat.odd (length v)) eqn:O; rewrite !Nat.even_add; cbn [Nat.even]; rewrite <- Nat.negb_odd, O; reflexivity.
Qed.
Lemma be_w32 : forall z, w32_ok z -> be32 z = w32 z.
Proof.
  intros z H. unfold w32_ok in H. unfold be32, w32. f_equal. apply Z.mod_small. split; [apply Z.div_pos; lia|apply Z.div_lt_upper_bound; lia].
Qed.
Lemma cstr_len : forall l, In 0 l -> (length (cstr l) < length l)%nat.
Proof.
  induction l as [|x l IH]; intros H; [destruct H|]. cbn [cstr length]. destruct (Z.eqb_spec x 0); [cbn; lia|]. destruct H as [H|H]; [contradiction|]. cbn [length]. specialize (IH H). lia.
Qed.

(** What the device is, in the order of the message. *)
Definition who (k : cfg) (a : ase) : list told :=
  [(2, 2, 0, cstr (a_name a)); (1, 2, 0, suite_bytes (a_suite a)); (2, 3, 0, k_device k); (2, 8, 0, k_oem k); (6, 1, 0, [0; if k_hello k then 1 else 0])].

Lemma body_eq : forall k a, dcfg_ok k -> ase_ok a ->
  hello_body k a = pos_block 2 2 0 (cstr (a_name a)) ++ pos_block 1 2 0 (suite_bytes (a_suite a)) ++ pos_block 2 3 0 (k_device k) ++ pos_block 2 8 0 (k_oem k) ++ pos_block 6 1 0 [0; if k_hello k then 1 else 0].
Proof.
  intros k a (_ & _ & _ & _ & _ & D4 & O4) (NL & N0 & S1 & S2 & S3). pose proof (cstr_len _ N0) as CL. rewrite NL in CL.
  unfold hello_body, hello_block.
  change (get_value k a o_prop p_name) with (@inr Z (nat * list Z) (name_size, a_name a)).
  change (get_value k a o_ip i_par) with (@inr Z (nat * list Z) (12%nat, host_suite (a_suite a))).
  change (get_value k a o_prop p_id) with (@inr Z (nat * list Z) (4%nat, k_device k)).
  change (get_value k a o_prop p_oem) with (@inr Z (nat * list Z) (4%nat, k_oem k)).
  change (get_value k a o_initiative 1) with (@inr Z (nat * list Z) (2%nat, le16 (if k_hello k then 1 else 0))).
  cbv beta iota.
  replace (firstn 12 (net_suite (a_suite a))) with (suite_bytes (a_suite a)) by (unfold net_suite, suite_bytes; rewrite !be_w32 by assumption; reflexivity).
  rewrite (firstn_all2 (n := 4) (k_device k)) by lia. rewrite (firstn_all2 (n := 4) (k_oem k)) by lia.
  replace (firstn 2 (be16 (hd 0 (le16 (if k_hello k then 1 else 0))))) with [0; if k_hello k then 1 else 0] by (destruct (k_hello k); reflexivity).
  assert (SL : length (suite_bytes (a_suite a)) = 12%nat) by reflexivity.
  pose proof (pos_len 2 2 (cstr (a_name a))) as L1. pose proof (pos_len 1 2 (suite_bytes (a_suite a))) as L2. rewrite SL in L2. pose proof (pos_len 2 3 (k_device k)) as L3. rewrite D4 in L3. pose proof (pos_len 2 8 (k_oem k)) as L4. rewrite O4 in L4.
  pose proof (pos_len 6 1 [0; if k_hello k then 1 else 0]) as L5. cbn [length] in L5. change (Nat.odd 2) with false in L5. change (Nat.odd 4) with false in L3, L4. change (Nat.odd 12) with false in L2. cbv iota in L2, L3, L4, L5.
  assert (L1' : (length (pos_block 2 2 0 (cstr (a_name a))) <= 248)%nat) by (rewrite L1; destruct (Nat.odd (length (cstr (a_name a)))); lia). clear L1.
  rewrite (put_pos o_prop p_name 0 (cstr (a_name a)) []); [|reflexivity|lia|change o_prop with 2; change p_name with 2; cbn [length]; lia].
  change o_prop with 2. change p_name with 2. change o_ip with 1. change i_par with 2. change p_id with 3. change p_oem with 8. change o_initiative with 6. cbn [app].
  set (b1 := pos_block 2 2 0 (cstr (a_name a))) in *. assert (E1 : Nat.even (length b1) = true) by (apply (even_block 2 2 (cstr (a_name a)) []); reflexivity).
  rewrite (put_pos 1 2 0); [|exact E1|lia|lia].
  assert (E2 := even_block 1 2 (suite_bytes (a_suite a)) b1 E1). set (b2 := b1 ++ pos_block 1 2 0 (suite_bytes (a_suite a))) in *.
  assert (M2 : (length b2 <= 268)%nat) by (unfold b2; rewrite app_length; lia).
  rewrite (put_pos 2 3 0); [|exact E2|lia|lia].
  assert (E3 := even_block 2 3 (k_device k) b2 E2). assert (M3 : (length (b2 ++ pos_block 2 3 0 (k_device k)) <= 278)%nat) by (rewrite app_length; lia).
  rewrite (put_pos 2 8 0); [|exact E3|lia|lia].
  assert (E4 := even_block 2 8 (k_oem k) _ E3). assert (M4 : (length ((b2 ++ pos_block 2 3 0 (k_device k)) ++ pos_block 2 8 0 (k_oem k)) <= 288)%nat) by (rewrite app_length; lia).
  rewrite (put_pos 6 1 0); [|exact E4|lia|lia].
  unfold b2. rewrite <- !app_assoc. reflexivity.
Qed.

(** C127: a HELLO message fits in a frame and is read as the name, address and identifiers that the
    device has at that time; without a buffer none is sent. *)
Theorem C127_hello : forall k a, dcfg_ok k -> ase_ok a ->
  hello_req k a false = None /\
  exists f, hello_req k a true = Some f /\ (length f <= 324)%nat /\ read_hello f = Some (k_mac k, who k a).
Proof.
  intros k a K A. split; [reflexivity|]. unfold hello_req. eexists. split; [reflexivity|]. rewrite (body_eq k a K A).
  pose proof K as (M6 & _ & _ & _ & _ & D4 & O4). pose proof A as (NL & N0 & _). pose proof (cstr_len _ N0) as CL. rewrite NL in CL.
  assert (SL : length (suite_bytes (a_suite a)) = 12%nat) by reflexivity.
  set (body := pos_block 2 2 0 (cstr (a_name a)) ++ _).
  assert (BL : (34 <= length body <= 296)%nat).
  { unfold body. rewrite !app_length, !pos_len, SL, D4, O4. cbn [length]. change (Nat.odd 2) with false. change (Nat.odd 4) with false. change (Nat.odd 12) with false. destruct (Nat.odd (length (cstr (a_name a)))); lia. }
  assert (RB : read_blocks (length body) body = Some (who k a)).
  { destruct (length body) as [|[|[|[|[|n]]]]]; try lia. unfold body. rewrite !read_pos by (cbn [length]; rewrite ?SL; lia).
    replace (pos_block 6 1 0 [0; if k_hello k then 1 else 0]) with (pos_block 6 1 0 [0; if k_hello k then 1 else 0] ++ []) by apply app_nil_r. rewrite read_pos by (cbn [length]; lia).
    destruct n; reflexivity. }
  clearbody body. split.
  - rewrite !app_length, M6. cbn [length hello_addr be16 be32]. lia.
  - destruct (k_mac k) as [|m1 [|m2 [|m3 [|m4 [|m5 [|m6 [|]]]]]]]; try discriminate M6.
    change (be16 65276) with [254; 252]. change (be32 1) with [0; 0; 0; 1]. change (be16 0) with [0; 0].
    unfold hello_addr, be16. cbn [app]. unfold read_hello.
    assert (E : 256 * (Z.of_nat (length body) / 256 mod 256) + Z.of_nat (length body) mod 256 = Z.of_nat (length body)).
    { rewrite (Z.mod_small (Z.of_nat (length body) / 256)) by (split; [apply Z.div_pos; lia|apply Z.div_lt_upper_bound; lia]). symmetry. apply Z.div_mod. lia. }
    rewrite E, Z.eqb_refl, RB. reflexivity.
Qed.
Print Assumptions C127_hello.

(** C127: whenever the device sends a message (C68), its frame tells the name and address that
    were recorded for it. *)
Theorem C127_when : forall k room s n v, dcfg_ok k -> ase_ok (cur s) -> ctr (cstep k (NHello room) s) = CHello n v :: ctr s ->
  exists f t, hello_req k (cur s) true = Some f /\ read_hello f = Some (k_mac k, t) /\ In (2, 2, 0, n) t /\ In (1, 2, 0, suite_bytes v) t /\ In (2, 3, 0, k_device k) t.
Proof.
  intros k room s n v K A E. destruct (C127_hello k (cur s) K A) as (_ & f & F & _ & R). exists f, (who k (cur s)). split; [exact F|]. split; [exact R|].
  assert (X : n = cstr (a_name (cur s)) /\ v = a_suite (cur s)).
  { cbn [cstep] in E. destruct (hello_timer s).
    - unfold send_hello in E. assert (NE : forall (x : cobs) l, l <> x :: l) by (intros x l H; apply (f_equal (@length _)) in H; cbn [length] in H; lia).
      destruct (cs s); cbn [ctr with_hello] in E; try (exfalso; exact (NE _ _ E)). destruct (hellos s); cbn [ctr with_hello cemit] in E; [exfalso; exact (NE _ _ E)|].
      injection E as E1 E2. split; congruence.
    - exfalso. apply (f_equal (@length _)) in E. cbn [length] in E. lia. }
  destruct X as (-> & ->). unfold who. cbn [In]. intuition auto.
Qed.
Print Assumptions C127_when.

(** Finding: a device that has an address says that it has none (block info 0), although it says in its
    answers (C73) that it has one; and its role is in no message. *)
Theorem C127_address_refuted : forall k a, dcfg_ok k -> ase_ok a -> some_ip (a_suite a) = true ->
  answer k a 1 2 = pos_block 1 2 1 (suite_bytes (a_suite a)) /\
  exists f t, hello_req k a true = Some f /\ read_hello f = Some (k_mac k, t) /\ In (1, 2, 0, suite_bytes (a_suite a)) t /\
    (forall i v, In (1, 2, i, v) t -> i = 0) /\ (forall i v, ~ In (2, 4, i, v) t).
Proof.
  intros k a K A S. split; [cbn [answer]; rewrite S; reflexivity|]. destruct (C127_hello k a K A) as (_ & f & F & _ & R). exists f, (who k a). split; [exact F|]. split; [exact R|].
  unfold who. split; [right; left; reflexivity|]. split.
  - intros i v H. cbn [In] in H. repeat (destruct H as [H|H]; [inversion H; reflexivity|]). destruct H.
  - intros i v H. cbn [In] in H. repeat (destruct H as [H|H]; [inversion H|]). destruct H.
Qed.
Print Assumptions C127_address_refuted.

(** A device "dut" with an address. *)
Definition ex_cfg : cfg := mkCfg true false suite0 (repeat 0 241) [2; 0; 0; 0; 0; 9] (repeat 65 25 ++ [0]) [4; 147; 0; 2] [0; 0; 0; 0].
Definition ex_ase : ase := mkAse ([100; 117; 116] ++ repeat 0 238) (mkSuite 3232235570 4294967040 3232235521).
Example C127_example : dcfg_ok ex_cfg /\ ase_ok ex_ase /\ some_ip (a_suite ex_ase) = true /\
  who ex_cfg ex_ase = [(2, 2, 0, [100; 117; 116]); (1, 2, 0, [192; 168; 0; 50; 255; 255; 255; 0; 192; 168; 0; 1]); (2, 3, 0, [4; 147; 0; 2]); (2, 8, 0, [0; 0; 0; 0]); (6, 1, 0, [0; 1])].
Proof.
  split; [|split; [|split; reflexivity]].
  - unfold dcfg_ok, ex_cfg, bytes, byte. cbn [k_mac k_product k_device k_oem]. repeat split; try reflexivity; [repeat constructor; lia|].
    apply in_or_app. right. left. reflexivity.
  - unfold ase_ok, suite_ok, w32_ok, ex_ase. cbn [a_name a_suite ip_addr ip_mask ip_gateway]. repeat split; try reflexivity; try lia.
    apply in_or_app. right. left. reflexivity.
Qed.
