(** Vocabulary of the statements about connect requests (C80-C89): areas of a
    frame, well-formed requests, and what "expected submodules are in order"
    means.  Independent of the code of /repo. *)
From Coq Require Import List ZArith Arith Bool.
From Verif Require Import Base CpmModel BlockModel ConnModel.
Import ListNotations.
Local Open Scope Z_scope.

(** * Areas of a frame *)

(** An area is an offset and a length. *)
Definition area := (Z * Z)%type.
Definition data_area (o : iodata) : area := (d_off o, d_len o).
Definition iops_area (o : iodata) : area := (s_off o, s_len o).
Definition iocs_area (o : iodata) : area := (k_off o, k_len o).
Definition areas (o : iodata) : list area := [data_area o; iops_area o; iocs_area o].

(** Byte number [b] belongs to the area. *)
Definition covers (a : area) (b : Z) : Prop := fst a <= b < fst a + snd a.
Definition inside (n : Z) (a : area) : Prop := 0 <= fst a /\ 0 <= snd a /\ fst a + snd a <= n.
Definition apart (a1 a2 : area) : Prop := forall b, ~ (covers a1 b /\ covers a2 b).

(** * Fields of the request have the widths of the blocks they were read from *)

Definition is16 (z : Z) : Prop := 0 <= z < 65536.
Definition is32 (z : Z) : Prop := 0 <= z < 4294967296.
Definition is8 (z : Z) : Prop := 0 <= z < 256.

Definition wf_fdesc (f : fdesc) : Prop := is16 (fd_slot f) /\ is16 (fd_subslot f) /\ is16 (fd_offset f).
Definition wf_cr (p : crparam) : Prop :=
  is16 (p_sdu p) /\ is16 (p_fid p) /\ is16 (p_scf p) /\ is16 (p_rr p) /\ is16 (p_phase p) /\ is16 (p_hold p) /\
  (forall e, In e (p_apis p) -> is32 (ae_api e) /\ forall f, In f (ae_data e ++ ae_iocs e) -> wf_fdesc f).
Definition wf_ddesc (d : ddesc) : Prop := is16 (dd_len d) /\ is8 (dd_iops d) /\ is8 (dd_iocs d).
Definition wf (q : request) : Prop :=
  (forall p, In p (q_crs q) -> wf_cr p) /\
  (forall a m x d, In a (q_exp q) -> In m (xa_mods a) -> In x (xm_subs m) -> In d (xs_descs x) -> wf_ddesc d) /\
  (forall a m x, In a (q_exp q) -> In m (xa_mods a) -> In x (xm_subs m) -> 0 <= xs_type x <= 3).

(** The tables of expected submodules within PNET_MAX_API, PNET_MAX_SLOTS and
    PNET_MAX_SUBSLOTS (the block reader sees to this: C53). *)
Definition fits (apis slots subslots : nat) (q : request) : Prop :=
  (length (q_exp q) <= apis)%nat /\
  forall a, In a (q_exp q) -> (length (xa_mods a) <= slots)%nat /\
  forall m, In m (xa_mods a) -> (length (xm_subs m) <= subslots)%nat.

(** * Sub-slots named in the request *)

(** The communication relation has an input/output data entry (IOCS entry) for
    the sub-slot at the offset. *)
Definition data_entry (p : crparam) (a s t off : Z) : Prop :=
  exists e, In e (p_apis p) /\ ae_api e = a /\ In (mkFdesc s t off) (ae_data e).
Definition iocs_entry (p : crparam) (a s t off : Z) : Prop :=
  exists e, In e (p_apis p) /\ ae_api e = a /\ In (mkFdesc s t off) (ae_iocs e).
(** The request expects this submodule. *)
Definition expected (q : request) (a s t : Z) (x : xsub) : Prop :=
  exists xa xm, In xa (q_exp q) /\ xa_api xa = a /\ In xm (xa_mods xa) /\ xm_slot xm = s /\ In x (xm_subs xm) /\ xs_subslot x = t.

(** * Expected submodules in order *)

(** What the data descriptors of a submodule must look like: types 0 (NO_IO) and
    1 (INPUT) have one descriptor, of the input direction (1); type 2 (OUTPUT)
    one of the output direction (2); type 3 (INPUT_OUTPUT) one of each. *)
Definition descs_ok (x : xsub) : Prop :=
  (xs_type x = 0 /\ (exists d, xs_descs x = [d] /\ dd_dir d = 1 /\ dd_len d = 0)) \/
  (xs_type x = 1 /\ (exists d, xs_descs x = [d] /\ dd_dir d = 1)) \/
  (xs_type x = 2 /\ (exists d, xs_descs x = [d] /\ dd_dir d = 2)) \/
  (xs_type x = 3 /\ (exists d1 d2, dd_dir d1 = 1 /\ dd_dir d2 = 2 /\ (xs_descs x = [d1; d2] \/ xs_descs x = [d2; d1]))).

(** The submodule is plugged in the device and its description is in order. *)
Definition sub_ok (v : dev) (crs : list crparam) (a s : Z) (x : xsub) : Prop :=
  has_sub v a s (xs_subslot x) = true /\
  xs_subslot x <= 40959 /\ (32768 <= xs_subslot x -> a = 0) /\
  (exists p off, In p crs /\ (data_entry p a s (xs_subslot x) off \/ iocs_entry p a s (xs_subslot x) off)) /\
  descs_ok x /\
  (forall d, In d (xs_descs x) -> dd_len d <= 1439 /\ dd_iops d = 1 /\ dd_iocs d = 1).
Definition mod_ok (v : dev) (crs : list crparam) (a : Z) (m : xmod) : Prop :=
  has_slot v a (xm_slot m) = true /\ xm_slot m <= 32767 /\ xm_ident m <> 0 /\ xm_subs m <> [] /\
  NoDup (map xs_subslot (xm_subs m)) /\
  forall x, In x (xm_subs m) -> sub_ok v crs a (xm_slot m) x.
Definition api_ok (v : dev) (crs : list crparam) (x : xapi) : Prop :=
  NoDup (map xm_slot (xa_mods x)) /\ forall m, In m (xa_mods x) -> mod_ok v crs (xa_api x) m.

(** An application that only plugs: nothing is removed and no API is created. *)
Definition only_plugs (app : application) : Prop := forall v c,
  map fst (v_apis (app v c)) = map fst (v_apis v) /\ v_max (app v c) = v_max v /\
  (forall a s, has_slot v a s = true -> has_slot (app v c) a s = true) /\
  (forall a s t, has_sub v a s t = true -> has_sub (app v c) a s t = true).

(** The device has, or has room for, all the APIs of the request. *)
Definition room (q : request) (v : dev) : Prop :=
  (length (v_apis v) + length (filter (fun x => negb (has_api v (xa_api x))) (q_exp q)) <= v_max v)%nat.

(** * Ranges of the parameters *)

Definition ar_ok (g : arp) : Prop :=
  g_type g = 1 /\ (exists b, In b (g_uuid g) /\ b <> 0) /\ Z.even (hd 0 (g_mac g)) = true /\
  firstn 10 (g_obj g) = [222; 160; 0; 0; 108; 151; 17; 209; 130; 113] /\
  g_state g = 1 /\ g_extserver g = false /\ g_access g = false /\ g_companion g <> 3 /\
  1 <= g_timeout g <= 1000 /\ g_namelen g <> 0 /\ g_namelen g <= 240 /\
  g_name g <> [] /\ (forall c, In c (g_name g) -> 32 <= c <= 126).

(** Frame ids of input relations and of multicast, by class. *)
Definition input_id (class f : Z) : Prop :=
  (class = 1 \/ class = 4 -> 49152 <= f <= 63487) /\ (class = 2 -> 32768 <= f <= 48127) /\ (class = 3 -> 256 <= f <= 32767).
Definition multicast_id (class f : Z) : Prop :=
  (class = 1 \/ class = 4 -> 63488 <= f <= 64511) /\ (class = 2 -> 48128 <= f <= 49151) /\ (class = 3 -> 256 <= f <= 32767).

Definition cr_ok (g : arp) (p : crparam) : Prop :=
  1 <= p_type p <= 4 /\ p_lt p = (if p_class p =? 4 then 2048 else 34962) /\
  (if g_startup g then 2 else 1) <= p_class p <= 5 /\ p_res1 p = false /\ p_res3 p = false /\
  (p_class p = 1 -> 40 <= p_sdu p <= 1440) /\ (p_class p = 4 -> 12 <= p_sdu p <= 1440) /\
  (p_type p = 1 -> input_id (p_class p) (p_fid p)) /\ (3 <= p_type p -> multicast_id (p_class p) (p_fid p)) /\
  In (p_scf p) [1; 2; 4; 8; 16; 32; 64; 128] /\
  (p_class p <= 3 -> 1 <= p_rr p <= 512 /\ (256 <= p_rr p -> p_scf p <= 64) /\ (p_rr p = 512 -> p_scf p <= 32)) /\
  (p_class p = 4 -> 1 <= p_rr p <= 16384 /\ (8192 <= p_rr p -> p_scf p <= 64) /\ (p_rr p = 16384 -> p_scf p <= 32)) /\
  p_phase p <> 0 /\ p_phase p <= p_rr p /\
  (p_fso p = 4294967295 \/ (p_fso p < p_scf p * 31250 /\ p_fso p < 4000000)) /\
  1 <= p_hold p <= 7680 /\ p_vlan p = 0 /\ p_prio p = 6 /\
  (3 <= p_type p -> Z.odd (hd 0 (p_mac p)) = true) /\ p_apis p <> [] /\
  (p_class p = 4 -> (forall b, In b (g_mac g) -> b = 0) /\ 1024 <= g_port g).

Definition alarm_ok (l : alarmcr) : Prop :=
  l_type l = 1 /\ l_lt l = (if l_udp l then 2048 else 34962) /\ 1 <= l_timeout l <= 100 /\ 3 <= l_retries l <= 15 /\
  200 <= l_maxlen l <= 1432 /\ l_hvlan l = 0 /\ l_hprio l = 6 /\ l_lvlan l = 0 /\ l_lprio l = 5.
