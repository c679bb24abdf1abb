(** Model of the calls of the application for diagnoses in standard and in manufacturer specific format: src/device/pf_diag.c. *)
From Coq Require Import List Arith Bool ZArith.
From Verif Require Import Base DiagModel.
Import ListNotations.
Open Scope Z_scope.

(** pf_diag.c:945-954 pf_diag_get_preferred_usi.  [qualified]: use_qualified_diagnosis of the configuration. *)
Definition preferred_usi (qualified : bool) : Z := if qualified then usi_qualified else usi_extended.

(** pf_diag.c:1023-1029, 1067-1073 and 1106-1112: the source of diagnoses in manufacturer format. *)
Definition whole (k : key) : source := mkSrc k whole_submodule 0 0.

(** The calls: pf_diag_std_add, _update, _remove, pf_diag_usi_add, _update, _remove.  The last arguments are what
    sending of alarms results in (DiagModel). *)
Inductive api :=
| StdAdd (src : source) (bits sev err ext addv qual : Z) (ok1 ok2 : bool)
| StdUpdate (src : source) (err ext addv : Z) (ok1 ok2 : bool)
| StdRemove (src : source) (err ext : Z) (ok : bool)
| UsiAdd (k : key) (usi len : Z) (data : option (list Z)) (ok1 ok2 : bool)
| UsiUpdate (k : key) (usi len : Z) (data : option (list Z)) (ok1 ok2 : bool)
| UsiRemove (k : key) (usi : Z) (ok : bool).

(** pf_diag.c:956-978 pf_diag_std_add, 980-996 pf_diag_std_update, 998-1010 pf_diag_std_remove, 1014-1056
    pf_diag_usi_add, 1058-1097 pf_diag_usi_update and 1099-1128 pf_diag_usi_remove. *)
Definition api_step (max_items : nat) (maxm : Z) (qualified : bool) (a : api) (s : dstate) : result :=
  match a with
  | StdAdd src bits sev err ext addv qual ok1 ok2 =>
      diag_add max_items maxm src bits sev err ext addv qual (preferred_usi qualified) 0 None ok1 ok2 s
  | StdUpdate src err ext addv ok1 ok2 =>
      diag_update max_items maxm src err ext addv (preferred_usi qualified) 0 None ok1 ok2 s
  | StdRemove src err ext ok => diag_remove max_items src err ext (preferred_usi qualified) ok s
  | UsiAdd k usi len data ok1 ok2 =>
      if usi_channel <=? usi then Some (s, -1, [])
      else diag_add max_items maxm (whole k) 0 m_fault 0 0 0 0 usi len data ok1 ok2 s
  | UsiUpdate k usi len data ok1 ok2 =>
      if usi_channel <=? usi then Some (s, -1, [])
      else diag_update max_items maxm (whole k) 0 0 0 usi len data ok1 ok2 s
  | UsiRemove k usi ok =>
      if usi_channel <=? usi then Some (s, -1, [])
      else diag_remove max_items (whole k) 0 0 usi ok s
  end.
