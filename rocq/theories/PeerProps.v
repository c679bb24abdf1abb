(** C126: what SNMP and the port records tell of the neighbour. *)
From Coq Require Import List ZArith Bool Lia Arith.
From Verif Require Import Base CpmModel CpmProps PpmModel PpmProps BlockModel BlockReadLemmas BlockReadProps BlockWriteProps LldpModel LldpProps LldpPortModel PeerModel.
Import ListNotations.
Local Open Scope Z_scope.

(** * Specification *)

(** The name of a device for its neighbours: its station name, or its address as text if it has
    none. *)
Definition known_as (d : me) : list Z := match m_station d with [] => mac_string (m_mac d) | s => s end.
(** Names without bytes that have a meaning in the frames: no dot in the name of a port ("port-001"),
    no zero byte. *)
Definition plain_names (d : me) : Prop :=
  m_port d <> [] /\ ~ In 0 (m_port d) /\ ~ In 46 (m_port d) /\ ~ In 0 (m_station d) /\ Forall byte (m_mac d).
(** BITS as octets (RFC 1906): bit k is found in octet k / 8, the most significant first. *)
Definition bits_octet (v : Z) (o : list Z) : Prop :=
  length o = 2%nat /\ Forall byte o /\ forall k, 0 <= k < 16 -> Z.testbit (nth (Z.to_nat (k / 8)) o 0) (7 - k mod 8) = Z.testbit v k.
(** The link as SNMP tells it: 1 for true and 2 for false (RFC 2579). *)
Definition told_link (sup ena : bool) (cap mau : Z) (l : slink) : Prop :=
  l_sup l = (if sup then 1 else 2) /\ l_ena l = (if ena then 1 else 2) /\ bits_octet cap (l_cap l) /\ l_mau l = mau.

(** * Names *)

Lemma cstr_view : forall size c k s, id_view c = Some (k, s) -> id_term size c -> ~ In 0 s -> cstr (i_str c) = s /\ i_valid c = true /\ i_sub c = k /\ i_len c = Z.of_nat (length s) /\ firstn (length s) (i_str c) = s.
Proof.
  intros size c k s V T N. unfold id_view in V. destruct (i_valid c) eqn:E; [|discriminate V]. injection V as V0 V. destruct (T E) as [L Z0].
  assert (Ln : (Z.to_nat (i_len c) < length (i_str c))%nat).
  { destruct (Nat.lt_ge_cases (Z.to_nat (i_len c)) (length (i_str c))) as [H|H]; [exact H|]. rewrite nth_overflow in Z0 by exact H. discriminate. }
  assert (Ls : length s = Z.to_nat (i_len c)) by (rewrite <- V, firstn_length; lia).
  split; [|split; [reflexivity|split; [exact V0|split; [rewrite Ls; lia|rewrite Ls; exact V]]]].
  clear L. revert Ln Z0 V. generalize (Z.to_nat (i_len c)) as n. clear - N. revert N. revert s. induction (i_str c) as [|x l IH]; intros s N n Ln Z0 V; [cbn [length] in Ln; lia|].
  destruct n as [|n]; cbn [nth firstn] in *.
  - subst s. cbn [cstr]. rewrite Z0. reflexivity.
  - subst s. cbn [cstr]. destruct (Z.eqb_spec x 0) as [->|NX]; [exfalso; apply N; left; reflexivity|]. f_equal. apply (IH _ ltac:(intros H; apply N; right; exact H) n); [cbn [length] in Ln; lia|exact Z0|reflexivity].
Qed.
Lemma after_dot_none : forall s, ~ In 46 s -> after_dot s = None.
Proof. induction s as [|x s IH]; intros N; [reflexivity|]. cbn [after_dot]. destruct (Z.eqb_spec x 46) as [->|]; [exfalso; apply N; left; reflexivity|]. apply IH. intros H. apply N. right. exact H. Qed.
Lemma after_dot_at : forall s t, ~ In 46 s -> after_dot (s ++ 46 :: t) = Some t.
Proof. induction s as [|x s IH]; intros t N; [reflexivity|]. cbn [after_dot app]. destruct (Z.eqb_spec x 46) as [->|]; [exfalso; apply N; left; reflexivity|]. apply IH. intros H. apply N. right. exact H. Qed.
Lemma name_loop_stop : forall s k t, ~ In 0 s -> ~ In 46 s -> (length s <= k)%nat -> (k = length s \/ exists x t', t = x :: t' /\ (x = 0 \/ x = 46)) -> name_loop k (s ++ t) = s.
Proof.
  induction s as [|x s IH]; intros k t N0 N46 L E; cbn [app length] in *.
  - destruct E as [->|(x & t' & -> & E)]; [destruct t; reflexivity|]. destruct k; [reflexivity|]. cbn [name_loop].
    destruct E as [->| ->]; reflexivity.
  - destruct k as [|k]; [lia|]. cbn [name_loop]. destruct (Z.eqb_spec x 0) as [->|]; [exfalso; apply N0; left; reflexivity|]. destruct (Z.eqb_spec x 46) as [->|]; [exfalso; apply N46; left; reflexivity|].
    cbn [orb]. f_equal. apply IH; [intros H; apply N0; right; exact H|intros H; apply N46; right; exact H|lia|].
    destruct E as [E|E]; [left; lia|right; exact E].
Qed.
Lemma hex_range : forall x, byte x -> forall y, In y (hex2 x) -> 48 <= y <= 70.
Proof.
  intros x B y H. unfold byte in B. assert (D1 : 0 <= x / 16 < 16) by (split; [apply Z.div_pos; lia|apply Z.div_lt_upper_bound; lia]). assert (D2 := Z.mod_pos_bound x 16 ltac:(lia)).
  unfold hex2, hex1 in H. destruct H as [H|[H|[]]]; [destruct (Z.ltb_spec (x / 16) 10)|destruct (Z.ltb_spec (x mod 16) 10)]; lia.
Qed.
Lemma mac_chars : forall m, Forall byte m -> forall y, In y (mac_string m) -> 45 <= y <= 70 /\ y <> 46.
Proof.
  intros m F y H. unfold mac_string in H. destruct m as [|a t]; [destruct H|]. apply in_app_or in H. destruct H as [H|H].
  - pose proof (hex_range a (Forall_inv F) y H). lia.
  - apply in_flat_map in H. destruct H as (x & I & [<-|H]); [lia|]. pose proof (proj1 (Forall_forall _ _) (Forall_inv_tail F) x I) as Bx. pose proof (hex_range x Bx y H). lia.
Qed.
Lemma mac_length : forall m, length m = 6%nat -> length (mac_string m) = 17%nat.
Proof. intros m L. do 7 (destruct m as [|? m]; try discriminate L). reflexivity. Qed.
Lemma snprintf_all : forall n s, Z.of_nat (length s) < n -> snprintf n s = s.
Proof. intros n s L. unfold snprintf. apply firstn_all2. lia. Qed.
Lemma known_len : forall d, me_ok d -> Z.of_nat (length (known_as d)) < 241.
Proof. intros d (L & _ & _ & M & _). unfold known_as. destruct (m_station d); [rewrite mac_length by exact M; lia|lia]. Qed.
Lemma known_zero : forall d, plain_names d -> ~ In 0 (known_as d).
Proof.
  intros d (_ & _ & _ & S0 & B) H. unfold known_as in H. destruct (m_station d); [|exact (S0 H)]. pose proof (mac_chars _ B 0 H). lia.
Qed.

Lemma names_told : forall d ds p, me_ok d -> plain_names d -> view_of p = said d -> terminated ds p ->
  peer_station p = known_as d /\ peer_port p = Some (m_port d).
Proof.
  intros d ds p M PN V (TC & TP & _). pose proof (known_len d M) as KL. pose proof (known_zero d PN) as K0. destruct PN as (P1 & P2 & P3 & P4 & P5).
  pose proof (f_equal v_chassis V) as VC. pose proof (f_equal v_port V) as VP. cbn [v_chassis v_port view_of said] in VC, VP. clear V.
  pose proof M as (M1 & M2 & _ & M4 & _). unfold said_chassis, said_port in *.
  assert (PO : forall t, (t = [] \/ exists x t', t = x :: t' /\ (x = 0 \/ x = 46)) -> forall k, id_view (p_pid p) = Some (k, m_port d ++ t) -> ~ In 0 (m_port d ++ t) -> peer_port p = Some (m_port d)).
  { intros t T k E N. destruct (cstr_view _ _ _ _ E TP N) as (_ & VV & _ & LL & FF). unfold peer_port. rewrite VV.
    replace (i_str (p_pid p)) with ((m_port d ++ t) ++ skipn (length (m_port d ++ t)) (i_str (p_pid p))) by (rewrite <- FF at 1; apply firstn_skipn).
    rewrite LL, <- app_assoc. rewrite name_loop_stop; [destruct (m_port d); [contradiction P1; reflexivity|reflexivity]|exact P2|exact P3|rewrite app_length; lia|].
    destruct T as [->|(x & t' & -> & T)].
    - left. rewrite app_nil_r. lia.
    - right. exists x. eexists. split; [reflexivity|exact T]. }
  destruct (m_legacy d).
  - assert (N : ~ In 0 (m_port d ++ [])) by (rewrite app_nil_r; exact P2).
    split; [|refine (PO [] (or_introl eq_refl) 7 _ N); rewrite app_nil_r; exact VP].
    destruct (cstr_view _ _ _ _ VP TP P2) as (CC & VV & _). unfold peer_station. rewrite VV, CC, after_dot_none by exact P3. unfold known_as in *.
    destruct (m_station d) as [|x s].
    + unfold id_view in VC. destruct (i_valid (p_cid p)) eqn:VE; [|discriminate VC]. injection VC as VS VF. rewrite VS. cbn [Z.eqb Pos.eqb].
      destruct (TC VE) as (TL & _). assert (L6 : (6 <= Z.to_nat (i_len (p_cid p)))%nat) by (rewrite <- VF in M4; rewrite firstn_length in M4; lia).
      assert (F6 : firstn 6 (i_str (p_cid p)) = m_mac d).
      { replace (firstn 6 (i_str (p_cid p))) with (firstn 6 (firstn (Z.to_nat (i_len (p_cid p))) (i_str (p_cid p)))) by (rewrite firstn_firstn; f_equal; lia).
        rewrite VF. apply firstn_all2. lia. }
      rewrite F6. apply snprintf_all. lia.
    + destruct (cstr_view _ _ _ _ VC TC P4) as (C1 & C2 & C3 & _). rewrite C2, C3, C1. cbn [Z.eqb Pos.eqb]. apply snprintf_all. exact KL.
  - change (match m_station d with [] => mac_string (m_mac d) | s => s end) with (known_as d) in VP.
    assert (N : ~ In 0 (m_port d ++ [46] ++ known_as d)).
    { intros H. apply in_app_or in H. destruct H as [H|[H|H]]; [exact (P2 H)|discriminate|exact (K0 H)]. }
    split; [|refine (PO ([46] ++ known_as d) _ 7 VP N); right; eexists; eexists; split; [reflexivity|right; reflexivity]].
    destruct (cstr_view _ _ _ _ VP TP N) as (CC & VV & _). unfold peer_station. rewrite VV, CC. cbn [app]. rewrite after_dot_at by exact P3. apply snprintf_all. exact KL.
Qed.

(** * Encodings *)

Lemma bit_reversed_spec : forall b, 0 <= b < 256 -> byte (bit_reversed b) /\ forall k, 0 <= k < 8 -> Z.testbit (bit_reversed b) (7 - k) = Z.testbit b k.
Proof.
  intros b B.
  assert (A : forallb (fun b => (0 <=? bit_reversed b) && (bit_reversed b <? 256) && forallb (fun k => Bool.eqb (Z.testbit (bit_reversed b) (7 - k)) (Z.testbit b k)) [0; 1; 2; 3; 4; 5; 6; 7])
    (map Z.of_nat (seq 0 256)) = true) by (vm_compute; reflexivity).
  rewrite forallb_forall in A. specialize (A b). assert (I : In b (map Z.of_nat (seq 0 256))).
  { apply in_map_iff. exists (Z.to_nat b). split; [lia|]. apply in_seq. lia. }
  specialize (A I). apply andb_true_iff in A. destruct A as (A1 & A2). apply andb_true_iff in A1. destruct A1 as (A0 & A1). apply Z.leb_le in A0. apply Z.ltb_lt in A1.
  split; [unfold byte; lia|]. intros k K. rewrite forallb_forall in A2. specialize (A2 k). apply eqb_prop. apply A2.
  assert (E : k = 0 \/ k = 1 \/ k = 2 \/ k = 3 \/ k = 4 \/ k = 5 \/ k = 6 \/ k = 7) by lia. cbn [In]. intuition auto.
Qed.
Lemma land_byte : forall v, 0 <= Z.land v 255 < 256.
Proof. intros v. rewrite land255. apply Z.mod_pos_bound. lia. Qed.
Lemma land_bit : forall v k, 0 <= k < 8 -> Z.testbit (Z.land v 255) k = Z.testbit v k.
Proof. intros v k K. rewrite Z.land_spec. change 255 with (Z.ones 8). rewrite Z.ones_spec_low by lia. apply andb_true_r. Qed.

(** C126: the capabilities that are told are the ones of the port, bit by bit. *)
Theorem C126_link : forall sup ena cap mau v, told_link sup ena cap mau (enc_link (mkLstat sup ena cap mau v)).
Proof.
  intros sup ena cap mau v. unfold told_link, enc_link. cbn [l_sup l_ena l_cap l_mau k_sup k_ena k_cap k_mau]. split; [reflexivity|]. split; [reflexivity|]. split; [|reflexivity].
  destruct (bit_reversed_spec _ (land_byte (Z.shiftr cap 0))) as (A1 & A2). destruct (bit_reversed_spec _ (land_byte (Z.shiftr cap 8))) as (B1 & B2).
  split; [reflexivity|]. split; [apply Forall_cons; [exact A1|apply Forall_cons; [exact B1|apply Forall_nil]]|]. intros k K.
  destruct (Z.lt_ge_cases k 8) as [K8|K8].
  - assert (D8 : k / 8 = 0) by (apply Z.div_small; split; [exact (proj1 K)|exact K8]). assert (R8 : k mod 8 = k) by (apply Z.mod_small; split; [exact (proj1 K)|exact K8]).
    rewrite D8, R8. change (Z.to_nat 0) with 0%nat. cbn [nth]. rewrite A2 by lia. rewrite land_bit by lia. rewrite Z.shiftr_spec by lia. rewrite Z.add_0_r. reflexivity.
  - assert (D8 : k / 8 = 1) by (symmetry; apply (Z.div_unique k 8 1 (k - 8)); lia). assert (R8 : k mod 8 = k - 8) by (symmetry; apply (Z.mod_unique k 8 1 (k - 8)); lia).
    rewrite D8, R8. change (Z.to_nat 1) with 1%nat. cbn [nth]. rewrite B2 by lia. rewrite land_bit by lia. rewrite Z.shiftr_spec by lia. f_equal. lia.
Qed.
Print Assumptions C126_link.

(** * Management address *)

Definition man_inv (p : peer) : Prop := p_mgmt p = mgmt0 \/ is_ipv4 (p_mgmt p) = true.
Lemma one_man : forall ds t n o p r p' o' r', man_inv p -> one_tlv ds t n o p r = Ok ((p', o'), r') -> man_inv p'.
Proof.
  intros ds t n o p r p' o' r' I E. unfold one_tlv, rbind, rret in E.
  repeat match type of E with
  | (if ?b then _ else _) _ = _ => destruct b
  | obind ?m _ = _ => destruct m as [[? ?]| |]; cbn [obind] in E; try discriminate E
  end; injection E as <- _ _; try exact I.
  destruct (is_ipv4 m) eqn:V; [right; exact V|exact I].
Qed.
Lemma tlvs_man : forall k ds o p r p' r', man_inv p -> tlvs k ds o p r = Ok (p', r') -> man_inv p'.
Proof.
  induction k as [|k IH]; intros ds o p r p' r' I E; [discriminate E|]. cbn [tlvs] in E. unfold rbind at 1 in E.
  destruct (get_tlv r) as [[tn r1]| |]; cbn [obind] in E; try discriminate E. destruct (fst tn =? 0); [injection E as <- _; exact I|].
  unfold rbind in E. destruct (one_tlv ds (fst tn) (snd tn) o p r1) as [[[p1 o1] r2]| |] eqn:O; cbn [obind fst snd] in E; try discriminate E.
  exact (IH ds o1 p1 r2 p' r' (one_man _ _ _ _ _ _ _ _ _ I O) E).
Qed.
Lemma parse_man : forall ds o buf len p, parse ds o buf len = Ok (Some p) -> man_inv p.
Proof.
  intros ds o buf len p E. unfold parse in E. destruct (tlvs _ _ _ _ _) as [[q r]| |] eqn:T; cbn [obind] in E; try discriminate E.
  destruct (is_ok (r_res r)); [|discriminate E]. injection E as <-. refine (tlvs_man _ _ _ _ _ _ _ _ T). left. reflexivity.
Qed.

(** C126: whatever bytes a neighbour sends, telling its management address stays inside the array;
    the number of bytes comes first. *)
Theorem C126_management : forall ds o buf len p, 1 <= ds -> length (fst o) = 3%nat -> Forall byte buf -> 0 <= len <= 65000 -> len <= Z.of_nat (length buf) ->
  parse ds o buf len = Ok (Some p) ->
  exists x, snmp_peer_man p = Ok x /\
    match x with
    | None => v_mgmt (view_of p) = None /\ snmp_peer_index p = None
    | Some a => exists v i n, v_mgmt (view_of p) = Some (v, i, n) /\ length v = 4%nat /\ a_value a = 4 :: v /\ a_sub a = 1 /\ a_len a = 5 /\ snmp_peer_index p = Some (n, i)
    end.
Proof.
  intros ds o buf len p D O B L N E. destruct (C99_safe ds o buf len D O B L N) as (res & E1 & OK). rewrite E in E1. injection E1 as <-.
  destruct OK as (_ & _ & _ & GL & _). pose proof (parse_man _ _ _ _ _ E) as I. unfold snmp_peer_man, snmp_peer_index, view_of. cbn [v_mgmt].
  destruct I as [I|I].
  - rewrite I. exists None. split; [reflexivity|split; reflexivity].
  - unfold is_ipv4 in I. apply andb_true_iff in I. destruct I as (I & I3). apply andb_true_iff in I. destruct I as (I1 & I2). apply Z.eqb_eq in I2, I3.
    rewrite I1. unfold enc_man. rewrite I3. cbn [Z.ltb Z.compare Pos.compare Pos.compare_cont obind]. eexists. split; [reflexivity|].
    eexists. eexists. eexists. split; [reflexivity|]. cbn [a_value a_sub a_len]. split; [rewrite firstn_length, GL; reflexivity|]. split; [reflexivity|]. split; [exact I2|]. split; reflexivity.
Qed.
Print Assumptions C126_management.

(** * Two devices *)

(** C126: a device that receives the frame of another one tells its name, the name of its port, its
    address, interface and link, in both naming modes, as the other one tells them itself. *)
Theorem C126_neighbour : forall d ds o buf, me_ok d -> plain_names d -> 1 <= ds -> length (fst o) = 3%nat -> frame_size <= Z.of_nat (length buf) ->
  exists buf' n p, construct d (mkWr (Some buf) frame_size 0) = Ok (mkWr (Some buf') frame_size n) /\
    parse ds o (skipn 14 (firstn (Z.to_nat n) buf')) (n - 14) = Ok (Some p) /\
    peer_station p = known_as d /\ peer_port p = Some (m_port d) /\
    (exists a, snmp_peer_man p = Ok (Some a) /\ snmp_man d = Ok a /\ a_value a = 4 :: e32 true (m_ip d) /\ a_sub a = 1 /\ a_len a = 5) /\
    snmp_peer_index p = Some (m_ifindex d, 2) /\ snmp_index d = (m_ifindex d, 2) /\
    snmp_peer_link p = Some (snmp_link d) /\ told_link (m_sup d) (m_ena d) (m_cap d) (m_mau d) (snmp_link d) /\
    snmp_peer_delays p = None.
Proof.
  intros d ds o buf M PN D O B. destruct (C101_round_trip d ds o buf M D O B) as (buf' & n & C & _ & _ & p & E & V & T).
  exists buf', n, p. split; [exact C|]. split; [exact E|]. destruct (names_told d ds p M PN V T) as (N1 & N2). split; [exact N1|]. split; [exact N2|].
  pose proof (parse_man _ _ _ _ _ E) as I. pose proof (f_equal v_mgmt V) as VM. pose proof (f_equal v_link V) as VL. pose proof (f_equal v_delay V) as VD.
  cbn [v_mgmt v_link v_delay view_of said] in VM, VL, VD. unfold snmp_peer_man, snmp_peer_index, snmp_peer_link, snmp_peer_delays, snmp_index, snmp_man.
  destruct (g_valid (p_mgmt p)) eqn:GV; [|discriminate VM]. injection VM as VM1 VM2 VM3.
  destruct I as [I|I]; [rewrite I in GV; discriminate GV|]. unfold is_ipv4 in I. apply andb_true_iff in I. destruct I as (I & I3). apply andb_true_iff in I. destruct I as (_ & I2). apply Z.eqb_eq in I2, I3.
  split.
  { unfold enc_man. cbn [my_mgmt g_len g_val g_sub]. rewrite I3. cbn [Z.ltb Z.compare Pos.compare Pos.compare_cont obind]. rewrite I3 in VM1. rewrite VM1, I2.
    assert (EV : firstn (Z.to_nat 4) ([Z.land (Z.shiftr (m_ip d) 24) 255; Z.land (Z.shiftr (m_ip d) 16) 255; Z.land (Z.shiftr (m_ip d) 8) 255; Z.land (m_ip d) 255] ++ repeat 0 27) = e32 true (m_ip d)).
    { change (firstn (Z.to_nat 4) ([Z.land (Z.shiftr (m_ip d) 24) 255; Z.land (Z.shiftr (m_ip d) 16) 255; Z.land (Z.shiftr (m_ip d) 8) 255; Z.land (m_ip d) 255] ++ repeat 0 27))
        with [Z.land (Z.shiftr (m_ip d) 24) 255; Z.land (Z.shiftr (m_ip d) 16) 255; Z.land (Z.shiftr (m_ip d) 8) 255; Z.land (m_ip d) 255].
      destruct M as (_ & _ & _ & _ & _ & MI & _). unfold u32r in MI. rewrite !land255, !Z.shiftr_div_pow2 by lia.
      change (2 ^ 24) with 16777216. change (2 ^ 16) with 65536. change (2 ^ 8) with 256.
      unfold e32, e16. cbn [app].
      assert (H : forall a b c e a' b' c' e' : Z, a = a' -> b = b' -> c = c' -> e = e' -> [a; b; c; e] = [a'; b'; c'; e']) by (intros; congruence).
      apply H; clear H; Z.div_mod_to_equations; lia. }
    rewrite EV. eexists. split; [reflexivity|]. split; [reflexivity|]. cbn [a_value a_sub a_len]. split; [reflexivity|split; reflexivity]. }
  rewrite VM2, VM3. split; [reflexivity|]. split; [reflexivity|].
  split; [|split; [apply C126_link|destruct (y_valid (p_delay p)); [discriminate VD|reflexivity]]].
  destruct (k_valid (p_phy p)) eqn:KV; [|discriminate VL]. unfold snmp_link, enc_link. injection VL as -> -> -> ->. reflexivity.
Qed.
Print Assumptions C126_neighbour.

(** * Neighbours of another make *)

(** What SNMP tells of a neighbour that has said [v]: of the five delays the one of sending, the one of
    receiving and the one of the line. *)
Definition told_delays (v : view) : option (Z * Z * Z) :=
  match v_delay v with Some (rx, rx_remote, tx, tx_remote, line) => Some (tx, rx, line) | None => None end.

(** C126: from any frame of well formed elements SNMP tells the delays, the link and the address that
    were said last, and none that were not said. *)
Theorem C126_received : forall ds o es l rest, 1 <= ds -> length (fst o) = 3%nat -> Forall (ewf ds) es -> 0 <= l <= 511 ->
  let frame := concat (map eencode es) ++ e16 true l ++ rest in let said := fold_left learn es view0 in
  Z.of_nat (length frame) <= 65000 ->
  exists p, parse ds o frame (Z.of_nat (length frame)) = Ok (Some p) /\
    snmp_peer_delays p = told_delays said /\
    match v_link said with
    | Some (sup, ena, cap, mau) => exists k, snmp_peer_link p = Some k /\ told_link sup ena cap mau k
    | None => snmp_peer_link p = None
    end /\
    match v_mgmt said with
    | Some (a, i, n) => snmp_peer_index p = Some (n, i) /\ exists k, snmp_peer_man p = Ok (Some k) /\ a_value k = Z.of_nat (length a) :: a /\ a_sub k = 1 /\ a_len k = Z.of_nat (length a) + 1
    | None => snmp_peer_index p = None /\ snmp_peer_man p = Ok None
    end.
Proof.
  intros ds o es l rest D O W L frame said N. destruct (C100_learned ds o es l rest D O W L N) as (p & E & V & _). fold frame in E. fold said in V. exists p. split; [exact E|].
  pose proof (parse_man _ _ _ _ _ E) as I. rewrite <- V. unfold told_delays, view_of. cbn [v_delay v_link v_mgmt]. split; [|split].
  - unfold snmp_peer_delays, enc_delay. destruct (y_valid (p_delay p)); reflexivity.
  - unfold snmp_peer_link. destruct (p_phy p) as [ks ke kc km kv]. cbn [k_valid k_sup k_ena k_cap k_mau]. destruct kv; [|reflexivity]. eexists. split; [reflexivity|apply C126_link].
  - unfold snmp_peer_index, snmp_peer_man. destruct I as [I|I]; [rewrite I; split; reflexivity|].
    unfold is_ipv4 in I. apply andb_true_iff in I. destruct I as (I & I3). apply andb_true_iff in I. destruct I as (I1 & I2). apply Z.eqb_eq in I2, I3.
    assert (LV : length (firstn (Z.to_nat (g_len (p_mgmt p))) (g_val (p_mgmt p))) = 4%nat).
    { assert (VL : match v_mgmt (view_of p) with Some (a, _, _) => length a = 4%nat | None => True end).
      { rewrite V. unfold said. clear. assert (A : match v_mgmt view0 with Some (a, _, _) => length a = 4%nat | None => True end) by exact Logic.I.
        revert A. generalize view0. induction es as [|e es IH]; intros v A; [exact A|]. cbn [fold_left]. apply IH. destruct e; try exact A.
        cbn [learn]. match goal with |- context [if ?b then _ else _] => destruct b eqn:B end; [|exact A]. cbn [v_mgmt]. apply andb_true_iff in B. apply Nat.eqb_eq. exact (proj2 B). }
      unfold view_of in VL. cbn [v_mgmt] in VL. rewrite I1 in VL. exact VL. }
    rewrite I1. split; [reflexivity|]. rewrite LV. unfold enc_man. rewrite I3 in *. cbn [Z.ltb Z.compare Pos.compare Pos.compare_cont obind]. eexists. split; [reflexivity|]. cbn [a_value a_sub a_len].
    split; [reflexivity|]. split; [exact I2|reflexivity].
Qed.
Print Assumptions C126_received.
Example C126_received_example : let es := [EDelay 1 2 3 4 5; EManagement 1 [10; 0; 0; 1] 2 7 []; ELink 3 32769 16; EDelay 6 7 8 9 10] in
  Forall (ewf 60) es /\ told_delays (fold_left learn es view0) = Some (8, 6, 10) /\ v_mgmt (fold_left learn es view0) = Some ([10; 0; 0; 1], 2, 7).
Proof. split; [|split; reflexivity]. repeat constructor; unfold u32r, byte; cbn; lia. Qed.

(** * Findings, and an example *)

Example C126_example : forall legacy, let d := mkMe legacy [100; 117; 116; 46; 97] [112; 111; 114; 116; 45; 48; 48; 49] [80; 32; 49] [2; 0; 0; 0; 0; 1] [2; 0; 0; 0; 0; 2]
  3232235570 2 true true 32769 16 in me_ok d /\ plain_names d.
Proof.
  intros legacy d. split; [unfold me_ok, u32r; cbn; lia|]. unfold plain_names, byte. cbn. repeat split; try discriminate; try (repeat constructor; lia); intuition discriminate.
Qed.

(** Finding: in the naming mode of older devices, a neighbour whose name of the port has a dot is told
    with a name that is not its own. *)
Theorem C126_dot_refuted : exists d buf' n p, me_ok d /\
  construct d (mkWr (Some (repeat 0 1500)) frame_size 0) = Ok (mkWr (Some buf') frame_size n) /\
  parse 60 ([0; 0; 0], 0) (skipn 14 (firstn (Z.to_nat n) buf')) (n - 14) = Ok (Some p) /\
  m_station d = [100; 117; 116] /\ peer_station p = [49] /\ peer_port p = Some [112].
Proof.
  exists (mkMe true [100; 117; 116] [112; 46; 49] [80; 32; 49] [2; 0; 0; 0; 0; 1] [2; 0; 0; 0; 0; 2] 3232235570 2 true true 32769 16).
  eexists. eexists. eexists. split; [unfold me_ok, u32r; cbn; lia|]. split; [vm_compute; reflexivity|]. split; [vm_compute; reflexivity|]. split; [reflexivity|]. split; reflexivity.
Qed.
Print Assumptions C126_dot_refuted.
