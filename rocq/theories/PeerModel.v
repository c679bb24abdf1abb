(** What SNMP and the port records tell of the neighbour: getters of src/common/pf_lldp.c and
    encoders of src/common/pf_snmp.c, on the neighbour information of LldpModel.v. *)
From Coq Require Import List ZArith Bool.
From Verif Require Import Base CpmModel BlockModel LldpModel LldpPortModel.
Import ListNotations.
Local Open Scope Z_scope.

(** pf_lldp.c:830-864 pf_lldp_get_peer_port_name: the loop, with the number of rounds left (the
    smaller of the length and the room in the array). *)
Fixpoint name_loop (k : nat) (s : list Z) : list Z :=
  match k, s with
  | S k, x :: s => if (x =? 0) || (x =? 46) then [] else x :: name_loop k s
  | _, _ => []
  end.
(** The same: None for the result -1.  pnet_api.h:1249 PNET_PORT_NAME_MAX_SIZE. *)
Definition peer_port (p : peer) : option (list Z) :=
  if i_valid (p_pid p) then
    match name_loop (Z.to_nat (Z.min (i_len (p_pid p)) 14)) (i_str (p_pid p)) with [] => None | s => Some s end
  else None.

(** pf_snmp.c:147-164 pf_snmp_bit_reversed_byte. *)
Definition bit_reversed (b : Z) : Z :=
  let p (i : Z) := Z.land b (Z.shiftl 1 i) in
  Z.lor (Z.lor (Z.lor (Z.lor (Z.lor (Z.lor (Z.lor (Z.shiftr (p 7) 7) (Z.shiftl (p 0) 7)) (Z.shiftr (p 6) 5)) (Z.shiftl (p 1) 5))
    (Z.shiftr (p 5) 3)) (Z.shiftl (p 2) 3)) (Z.shiftr (p 4) 1)) (Z.shiftl (p 3) 1).

(** pf_snmp.h:241-255 pf_snmp_link_status_t. *)
Record slink := mkSlink { l_sup : Z; l_ena : Z; l_cap : list Z; l_mau : Z }.
(** pf_snmp.c:172-199 pf_snmp_encode_link_status. *)
Definition enc_link (k : lstat) : slink :=
  mkSlink (if k_sup k then 1 else 2) (if k_ena k then 1 else 2)
    [bit_reversed (Z.land (Z.shiftr (k_cap k) 0) 255); bit_reversed (Z.land (Z.shiftr (k_cap k) 8) 255)] (k_mau k).

(** pf_snmp.h:224-234 pf_snmp_management_address_t: the bytes of value that count (len of them), and
    the subtype. *)
Record sman := mkSman { a_value : list Z; a_sub : Z; a_len : Z }.
(** pf_snmp.c:207-223 pf_snmp_encode_management_address; the array has room for 31 bytes behind the
    first one. *)
Definition enc_man (g : mgmt) : outcome sman :=
  if 31 <? g_len g then Ub else Ok (mkSman (u8 (g_len g) :: firstn (Z.to_nat (g_len g)) (g_val g)) (g_sub g) (g_len g + 1)).

(** pf_snmp.c:231-238 pf_snmp_encode_signal_delays: sent, received and line delay. *)
Definition enc_delay (y : delay) : Z * Z * Z := (y_txl y, y_rxl y, y_cable y).

(** pf_snmp.c:561-577 pf_snmp_get_peer_management_address with pf_lldp.c:754-766
    pf_lldp_get_peer_management_address; None for the result -1. *)
Definition snmp_peer_man (p : peer) : outcome (option sman) :=
  if g_valid (p_mgmt p) then do x <- enc_man (p_mgmt p); Ok (Some x) else Ok None.
(** pf_snmp.c:589-605 pf_snmp_get_peer_management_port_index: value and subtype. *)
Definition snmp_peer_index (p : peer) : option (Z * Z) :=
  if g_valid (p_mgmt p) then Some (g_ifval (p_mgmt p), g_ifsub (p_mgmt p)) else None.
(** pf_snmp.c:645-660 pf_snmp_get_peer_signal_delays with pf_lldp.c:880-892
    pf_lldp_get_peer_signal_delays. *)
Definition snmp_peer_delays (p : peer) : option (Z * Z * Z) := if y_valid (p_delay p) then Some (enc_delay (p_delay p)) else None.
(** pf_snmp.c:673-688 pf_snmp_get_peer_link_status with pf_lldp.c:912-924
    pf_lldp_get_peer_link_status. *)
Definition snmp_peer_link (p : peer) : option slink := if k_valid (p_phy p) then Some (enc_link (p_phy p)) else None.

(** pf_snmp.c:551-559 pf_snmp_get_management_address, 579-587 pf_snmp_get_management_port_index and
    662-671 pf_snmp_get_link_status, with pf_lldp.c:736-752 pf_lldp_get_management_address and 894-910
    pf_lldp_get_link_status: the device itself. *)
Definition my_mgmt (d : me) : mgmt := mkMgmt ([Z.land (Z.shiftr (m_ip d) 24) 255; Z.land (Z.shiftr (m_ip d) 16) 255; Z.land (Z.shiftr (m_ip d) 8) 255; Z.land (m_ip d) 255] ++ repeat 0 27) 1 4 2 (m_ifindex d) true.
Definition snmp_man (d : me) : outcome sman := enc_man (my_mgmt d).
Definition snmp_index (d : me) : Z * Z := (g_ifval (my_mgmt d), g_ifsub (my_mgmt d)).
Definition snmp_link (d : me) : slink := enc_link (mkLstat (m_sup d) (m_ena d) (m_cap d) (m_mau d) true).
