(** Specification vocabulary for the diagnosis store (C34, C35, C53, C54). *)

From Coq Require Import List Arith Bool ZArith.
From Verif Require Import Base DiagModel.
Import ListNotations.
Set Implicit Arguments.
Open Scope Z_scope.

(** A diagnosis: in standard format for a channel, or in manufacturer
    specific format (USI format). *)
Inductive diag :=
| Standard (usi : Z) (d : std)
| Manufacturer (usi : Z) (data : list Z).

Definition content (i : ditem) : diag :=
  if d_usi i <? 32768 then Manufacturer (d_usi i) (d_data i)
  else Standard (d_usi i) (d_std i).

(** What identifies a diagnosis in its sub-slot (pnet_api.h, pnet_diag_std_add
    and pnet_diag_usi_add): channel, grouping, direction and error types, or
    the USI. *)
Inductive dkey :=
| KStandard (ch group dir err ext : Z)
| KManufacturer (usi : Z).
(** The fields of the channel properties: bit 8 accumulative, bits 9-10
    maintenance, bits 11-12 specifier, bits 13-15 direction. *)
Definition p_group (p : Z) : Z := Z.land (Z.shiftr p 8) 1.
Definition p_maint (p : Z) : Z := Z.land (Z.shiftr p 9) 3.
Definition p_spec (p : Z) : Z := Z.land (Z.shiftr p 11) 3.
Definition p_dir (p : Z) : Z := Z.land (Z.shiftr p 13) 7.
Definition props (bits group sev spec dir : Z) : Z :=
  bits + 256 * group + 512 * sev + 2048 * spec + 8192 * dir.
Definition key_of (d : diag) : dkey :=
  match d with
  | Standard _ s => KStandard (ch_nbr s) (p_group (ch_props s)) (p_dir (ch_props s))
                              (ch_err s) (ext_err s)
  | Manufacturer u _ => KManufacturer u
  end.
Definition dkey_eq_dec (a b : dkey) : {a = b} + {a <> b}.
Proof. decide equality; apply Z.eq_dec. Defined.
Definition has_key (k : dkey) (d : diag) : bool :=
  if dkey_eq_dec (key_of d) k then true else false.

(** The diagnoses of a plugged sub-slot, as found by following its list. *)
Definition stored (max : nat) (s : dstate) (k : key) : option (list diag) :=
  match find_cell k (cells s) with
  | None => None
  | Some c => match walk_items max (items s) (c_list (cell_at c s)) with
              | Some l => Some (map content l)
              | None => None
              end
  end.

(** Number of items in use. *)
Definition used (max : nat) (s : dstate) : nat :=
  length (filter (fun i => d_use (items s i)) (seq 0 max)).

(** Severity of a diagnosis: manufacturer specific ones are faults; with
    "qualified" severity the qualifier decides (pnet_api.h). *)
Definition has_severity (sev mask : Z) (d : diag) : bool :=
  match d with
  | Manufacturer _ _ => sev =? 0
  | Standard _ s =>
      (p_maint (ch_props s) =? sev)
      || ((p_maint (ch_props s) =? 3) && negb (Z.land (qualifier s) mask =? 0))
  end.
Definition is_fault : diag -> bool := has_severity 0 4160749568.
Definition is_required : diag -> bool := has_severity 1 130944.
Definition is_demanded : diag -> bool := has_severity 2 134086656.

(** Calls as they can be made through the public functions pnet_diag_std_* and
    pnet_diag_usi_* (pnet_api.c, pf_diag.c 956-1128) with values of the
    enumerations of pnet_api.h. *)
Definition usi_source (src : source) : Prop :=
  s_ch src = 32768 /\ s_group src = 0 /\ s_dir src = 0.
Definition src_ok (src : source) (usi : Z) : Prop :=
  0 <= s_group src <= 1 /\ 0 <= s_dir src <= 7 /\ 0 <= usi /\
  (usi < 32768 -> usi_source src).
Definition api_call (x : call) : Prop :=
  match x with
  | CAdd src bits sev err ext addv qual usi len data _ _ =>
      src_ok src usi /\ 0 <= bits <= 7 /\ 0 <= sev <= 3 /\ 0 <= qual < 4294967296
  | CUpdate src err ext addv usi len data _ _ => src_ok src usi
  | CRemove src err ext usi _ => src_ok src usi
  | _ => True
  end.
(** Standard diagnoses are not added for the whole sub-module with error type
    0, individual channel and unspecified direction. *)
Definition not_blank (x : call) : Prop :=
  match x with
  | CAdd src _ _ err ext _ _ usi _ _ _ _ =>
      32768 <= usi -> ~ (usi_source src /\ err = 0 /\ ext = 0)
  | _ => True
  end.
Definition proper (x : call) : Prop := api_call x /\ not_blank x.

Definition never_pulls (x : call) : Prop :=
  match x with CPull _ => False | _ => True end.

(** States reached by calls in E, starting with n sub-slot cells. *)
Definition dreach (max : nat) (maxm : Z) (n : nat) (E : call -> Prop) (s : dstate) : Prop :=
  exists xs tr, Forall E xs /\ drun max maxm xs (dinit max n) [] = Some (s, tr).

(** Which parameter values the functions accept.  The qualifier is taken
    without its 3 reserved bits. *)
Definition usi_known (usi : Z) : Prop :=
  usi < 32768 \/ usi = 32768 \/ usi = 32770 \/ usi = 32771.
Definition acceptable_key (src : source) (err ext usi : Z) : Prop :=
  usi_known usi /\ s_ch src <= 32768 /\
  (usi < 32768 -> err = 0 /\ ext = 0) /\ (usi = 32768 -> ext = 0).
Definition acceptable_data (maxm usi len : Z) (data : option (list Z)) : Prop :=
  len <= maxm /\ (usi < 32768 -> 0 < len -> data <> None) /\
  (32768 <= usi -> data = None /\ len = 0).
Definition acceptable_update (maxm : Z) (src : source) (err ext addv usi len : Z)
    (data : option (list Z)) : Prop :=
  acceptable_key src err ext usi /\ acceptable_data maxm usi len data /\
  (usi <= 32768 -> addv = 0).
Definition acceptable (maxm : Z) (src : source) (sev err ext addv qual usi len : Z)
    (data : option (list Z)) : Prop :=
  acceptable_update maxm src err ext addv usi len data /\
  let q := Z.land qual (Z.lnot 7) in
  (usi <> 32771 -> q = 0 /\ sev <> 3) /\ (q <> 0 -> sev = 3).

(** The diagnosis described by an add call. *)
Definition described (src : source) (bits sev err ext addv qual usi len : Z)
    (data : option (list Z)) : diag :=
  if usi <? 32768
  then Manufacturer usi (match data with Some d => firstn (Z.to_nat len) d | None => [] end)
  else Standard usi (mkStd (s_ch src) (props bits (s_group src) sev 1 (s_dir src))
                       err ext addv (Z.land qual (Z.lnot 7))).
(** The diagnosis after an update. *)
Definition updated (addv len : Z) (data : option (list Z)) (d : diag) : diag :=
  match d with
  | Standard u s => Standard u (mkStd (ch_nbr s) (ch_props s) (ch_err s) (ext_err s) addv
                                  (qualifier s))
  | Manufacturer u _ =>
      Manufacturer u (match data with Some x => firstn (Z.to_nat len) x | None => [] end)
  end.
(** The key named by a call. *)
Definition named (src : source) (err ext usi : Z) : dkey :=
  if usi <? 32768 then KManufacturer usi
  else KStandard (s_ch src) (s_group src) (s_dir src) err ext.

(** The connection that owns a plugged sub-slot. *)
Definition owner_of (s : dstate) (k : key) : option nat :=
  match find_cell k (cells s) with
  | Some c => c_owner (cell_at c s)
  | None => None
  end.

(** The last problem indication for a connection; observations newest first. *)
Fixpoint last_indicator (ar : nat) (tr : list dobs) : option bool :=
  match tr with
  | [] => None
  | DIndicator a b :: r => if Nat.eqb a ar then Some b else last_indicator ar r
  | _ :: r => last_indicator ar r
  end.

(** A diagnosis that is a fault without regard to qualifiers. *)
Definition plain_fault (d : diag) : bool :=
  match d with
  | Manufacturer _ _ => true
  | Standard _ s => p_maint (ch_props s) =? 0
  end.

(** Diagnosis alarms among observations, and the same diagnosis with another
    specifier in its channel properties. *)
Inductive notice :=
| NStandard (ar : nat) (k : key) (d : diag)
| NGone (ar : nat) (k : key) (usi : Z).
Fixpoint notices (os : list dobs) : list notice :=
  match os with
  | [] => []
  | DAlarm ar k i :: r => NStandard ar k (content i) :: notices r
  | DGone ar k u :: r => NGone ar k u :: notices r
  | DIndicator _ _ :: r => notices r
  end.
Definition with_spec (sp : Z) (d : diag) : diag :=
  match d with
  | Standard u s =>
      let p := ch_props s in
      Standard u (mkStd (ch_nbr s)
                    (props (Z.land p 255) (p_group p) (p_maint p) sp (p_dir p))
                    (ch_err s) (ext_err s) (add_value s) (qualifier s))
  | Manufacturer u x => Manufacturer u x
  end.
Definition usi_of (d : diag) : Z :=
  match d with Standard u _ => u | Manufacturer u _ => u end.
