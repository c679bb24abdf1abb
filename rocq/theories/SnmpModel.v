(** The names of the device that are set and read through SNMP: src/common/pf_snmp.c, with the I&M
    data of FspmModel.v. *)
From Coq Require Import List ZArith Bool.
From Verif Require Import Base BlockModel FspmModel.
Import ListNotations.
Local Open Scope Z_scope.

Inductive which := Contact | Name | Location.
(** pf_snmp.h:140, 164, 214 (the arrays): PNAL_HOSTNAME_MAX_SIZE (src/pnal.h:49) for the name. *)
Definition size (x : which) : nat := match x with Contact => 256 | Name => 64 | Location => 256 end.
Definition which_eqb (x y : which) : bool :=
  match x, y with Contact, Contact | Name, Name | Location, Location => true | _, _ => false end.
Definition upd {A} (f : which -> A) (x : which) (v : A) : which -> A := fun y => if which_eqb x y then v else f y.

(** pf_types.h:2919-2924 pf_snmp_data_t: the strings in the arrays (bytes behind the terminator are
    never told); the three files (whole arrays; None: missing or not readable, see FileModel.v); the
    I&M data and their file. *)
Record sys := mkSys { y_var : which -> list Z; y_file : which -> option (list Z); y_im : fstat }.

(** How writing a file ends: written; failed and the old contents still there; failed and the old
    contents lost (the rest is rejected when it is loaded, see C24). *)
Inductive disk := Saved | Kept | Lost.
(** pf_file.c:271-306 pf_file_save_if_modified, as in FileModel.v: contents and whether it
    succeeded. *)
Definition store (d : disk) (v : list Z) (f : option (list Z)) : option (list Z) * bool :=
  if (match f with Some o => if list_eq_dec Z.eq_dec o v then true else false | None => false end) then (f, true)
  else match d with Saved => (Some v, true) | Kept => (f, false) | Lost => (None, false) end.

(** snprintf of "%s" to an array of n bytes. *)
Definition copied (n : nat) (v : list Z) : list Z := firstn (n - 1) (before_nul v).
(** The string in an array of n bytes whose last byte is set to 0. *)
Definition in_array (n : nat) (a : list Z) : list Z := before_nul (firstn (n - 1) a).

(** pf_snmp.c:351-360 pf_snmp_get_system_name, 392-403 pf_snmp_get_system_contact, 431-442
    pf_snmp_get_system_location. *)
Definition get_var (s : sys) (x : which) : list Z := firstn (size x - 1) (y_var s x).

(** pf_snmp.c:362-390 pf_snmp_set_system_name, 405-429 pf_snmp_set_system_contact, 444-471
    pf_snmp_set_system_location; the state and whether 0 is returned. *)
Definition set_var (s : sys) (x : which) (v : list Z) (d : disk) : sys * bool :=
  let r := store d v (y_file s x) in
  let im := match x with Location => mkFst (set_location (s_im (y_im s)) v) (s_file (y_im s)) | _ => y_im s end in
  (mkSys (upd (y_var s) x (copied (size x) v)) (upd (y_file s) x (fst r)) im, snd r).

(** pf_fspm.c:397-406 pf_fspm_get_im_location. *)
Definition im_location (m : im) : list Z := before_nul (padded22 (i_loc m)).
(** pf_snmp.c:328-349 pf_snmp_fspm_im_location_ind.  Removing a file is taken to succeed. *)
Definition im_location_ind (m : im) (s : sys) : sys :=
  mkSys (upd (y_var s) Location (im_location m)) (upd (y_file s) Location None) (y_im s).

(** pf_snmp.c:302-307 pf_snmp_remove_data_files. *)
Definition remove_files (s : sys) : sys := mkSys (y_var s) (fun _ => None) (y_im s).
(** pf_snmp.c:309-326 pf_snmp_data_clear. *)
Definition data_clear (s : sys) : sys := mkSys (fun _ => []) (fun _ => None) (y_im s).

(** pf_snmp.c:240-300 pf_snmp_data_init; [host] is what pnal_get_hostname delivers. *)
Definition data_init (host : option (list Z)) (s : sys) : sys :=
  mkSys (fun x => match y_file s x with
    | Some a => in_array (size x) a
    | None => match x with
      | Contact => []
      | Name => match host with Some h => in_array (size Name) h | None => [] end
      | Location => in_array (size Location) (im_location (s_im (y_im s)) ++ [0])
      end
    end) (y_file s) (y_im s).

(** What happens.  SWrite: a record is written by a controller ([ok]: its file is saved). SJob: the
    background job that saves I&M data.  SReset: reset to factory settings.  SRemove: the application
    removes all files.  SBoot: power off and start. *)
Inductive sev :=
  | SSet (x : which) (v : list Z) (d : disk)
  | SWrite (ix : Z) (d : list Z) (ok : bool)
  | SJob (ok : bool)
  | SReset (mode : Z)
  | SRemove
  | SBoot (host : option (list Z)) (ok : bool).

(** One event.  SWrite: pf_fspm.c:848-1144 pf_fspm_cm_write_ind.  SReset: pf_cmina.c:280-334, in
    pf_cmina_set_default_cfg.  SRemove: pf_cmina.c:1283-1294 pf_cmina_remove_all_data_files.  SBoot:
    pnet_api.c:36-103 pnet_init_only (pf_fspm_init is before pf_snmp_data_init). *)
Definition sstep (sup : Z) (def : im) (s : sys) (e : sev) : outcome (sys * bool) :=
  match e with
  | SSet x v d => Ok (set_var s x v d)
  | SWrite ix d ok =>
    do x <- write_im sup (s_im (y_im s)) ix d;
    let '(m, r) := x in
    let s1 := mkSys (y_var s) (y_file s) (mkFst m (s_file (y_im s))) in
    match r with
    | None =>
      let s2 := if ix =? ix_im0 + 1 then im_location_ind m s1 else s1 in
      Ok (mkSys (y_var s2) (y_file s2) (save_im ok (y_im s2)), true)
    | Some _ => Ok (s1, false)
    end
  | SJob ok => Ok (mkSys (y_var s) (y_file s) (save_im ok (y_im s)), true)
  | SReset mode =>
    let s1 := if (mode =? 1) || (3 <=? mode) then data_clear (mkSys (y_var s) (y_file s) (mkFst clear_im (s_file (y_im s)))) else s in
    let s2 := if (mode =? 2) || (3 <=? mode) then data_clear s1 else s1 in
    Ok (s2, true)
  | SRemove => let s1 := remove_files s in Ok (mkSys (y_var s1) (y_file s1) (mkFst (s_im (y_im s1)) None), true)
  | SBoot host ok =>
    do f <- fstep sup def (y_im s) (PowerUp ok);
    Ok (data_init host (mkSys (y_var s) (y_file s) f), true)
  end.
Fixpoint srun (sup : Z) (def : im) (s : sys) (h : list sev) : outcome sys :=
  match h with [] => Ok s | e :: h => do x <- sstep sup def s e; srun sup def (fst x) h end.
