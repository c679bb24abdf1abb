(** Model of the file storage: src/common/pf_file.c.  The platform functions
    pnal_load_file, pnal_save_file and pnal_clear_file are not part of the
    repository; they are modelled by their contract (src/pnal.h:210-262, as in
    test/mocks.cpp:220-293): a file is a sequence of bytes, saving replaces it by
    the two buffers one after the other, loading fails if the file is missing or
    shorter than the two buffers. *)
From Coq Require Import List ZArith Arith Bool.
From Verif Require Import Base CpmModel.
Import ListNotations.
Local Open Scope Z_scope.

(** A terminated string is the list of its bytes before the terminator. *)
Definition str := list Z.
Definition slash : Z := 47.

(** strcpy and strcat to a buffer of [size] bytes; writing outside it is
    undefined. *)
Definition strcpy (size : nat) (s : str) : outcome str :=
  if (length s + 1 <=? size)%nat then Ok s else Ub.
Definition strcat (size : nat) (d s : str) : outcome str :=
  if (length d + length s + 1 <=? size)%nat then Ok (d ++ s) else Ub.

(** pf_file.c:70-138 pf_file_join_directory_filename: None is the return value
    -1.  [dir] is None for a NULL pointer. *)
Definition join (dir : option str) (fname : str) (size : nat) : outcome (option str) :=
  if (length fname <? 1)%nat then Ok None else
  let d := match dir with None => [] | Some d => d end in
  if negb (length d =? 0)%nat then
    if (size <? length d + length fname + 2)%nat then Ok None else
    do p <- strcpy size d;
    do p1 <- (if negb (nth (length d - 1) p 0 =? slash) then strcat size p [slash] else Ok p);
    do p2 <- strcat size p1 fname;
    Ok (Some p2)
  else
    if (size <? length fname + 1)%nat then Ok None else
    do p <- strcpy size fname;
    Ok (Some p).

(** The file system. *)
Definition fsys := str -> option (list Z).
Definition fs_upd (fs : fsys) (p : str) (v : option (list Z)) : fsys :=
  fun q => if list_eq_dec Z.eq_dec q p then v else fs q.

(** pnal_load_file: header and object, or None. *)
Definition pnal_load (fs : fsys) (path : str) (size1 size2 : nat) : option (list Z * list Z) :=
  match fs path with
  | Some c => if (length c <? size1 + size2)%nat then None
              else Some (firstn size1 c, firstn size2 (skipn size1 c))
  | None => None
  end.

(** How a call of pnal_save_file ends: success, failure after writing some bytes
    of the new content, failure before touching the file, or power loss after
    writing some bytes (the call then does not return). *)
Inductive save_end := SvOk | SvFail (written : nat) | SvUntouched | SvCrash (written : nat).

Definition pnal_save (fs : fsys) (path : str) (o1 o2 : list Z) (e : save_end) : option Z * fsys :=
  match e with
  | SvOk => (Some 0, fs_upd fs path (Some (o1 ++ o2)))
  | SvFail k => (Some (-1), fs_upd fs path (Some (firstn k (o1 ++ o2))))
  | SvUntouched => (Some (-1), fs)
  | SvCrash k => (None, fs_upd fs path (Some (firstn k (o1 ++ o2))))
  end.

(** pf_block_writer.c pf_put_uint32 (big endian) and pf_block_reader.c
    pf_get_uint32 (big endian). *)
Definition put_be32 (v : Z) : list Z :=
  [Z.land (Z.shiftr v 24) 255; Z.land (Z.shiftr v 16) 255; Z.land (Z.shiftr v 8) 255; Z.land v 255].
Definition get_be32 (l : list Z) (pos : nat) : Z :=
  Z.shiftl (nth pos l 0) 24 + Z.shiftl (nth (pos + 1) l 0) 16 + Z.shiftl (nth (pos + 2) l 0) 8 + nth (pos + 3) l 0.

(** pf_file.h: PF_FILE_MAGIC "PNET", PF_FILE_VERSION. *)
Definition file_magic : Z := 1347306836.
Definition file_version : Z := 1.

(** PNET_MAX_FILE_FULLPATH_SIZE. *)
Definition file_header : list Z := put_be32 file_magic ++ put_be32 file_version.

(** pf_file.c:140-217 pf_file_load: None is the return value -1.  (On failure the
    buffer of the caller may have been overwritten; it is not used then.) *)
Definition file_load (fullsize : nat) (fs : fsys) (dir : option str) (fname : str) (size : nat) : outcome (option (list Z)) :=
  do p <- join dir fname fullsize;
  match p with
  | None => Ok None
  | Some path =>
    match pnal_load fs path 8 size with
    | None => Ok None
    | Some (h, o) =>
      if negb (get_be32 h 0 =? file_magic) then Ok None
      else if negb (get_be32 h 4 =? file_version) then Ok None
      else Ok (Some o)
    end
  end.

(** pf_file.c:219-269 pf_file_save: return value (None if power was lost during
    the call) and new file system. *)
Definition file_save (fullsize : nat) (fs : fsys) (dir : option str) (fname : str) (obj : list Z) (e : save_end)
  : outcome (option Z * fsys) :=
  do p <- join dir fname fullsize;
  match p with
  | None => Ok (Some (-1), fs)
  | Some path => Ok (pnal_save fs path file_header obj e)
  end.

(** pf_file.c:271-306 pf_file_save_if_modified. *)
Definition file_save_if_modified (fullsize : nat) (fs : fsys) (dir : option str) (fname : str) (obj : list Z) (e : save_end)
  : outcome (option Z * fsys) :=
  do l <- file_load fullsize fs dir fname (length obj);
  let ret := match l with Some old => if negb (blist_eqb old obj) then 1 else 0 | None => 2 end in
  if ret =? 0 then Ok (Some 0, fs) else
  do r <- file_save fullsize fs dir fname obj e;
  let '(sv, fs') := r in
  Ok (match sv with
      | None => None
      | Some v => Some (if negb (v =? 0) then -1 else ret)
      end, fs').

(** pf_file.c:308-323 pf_file_clear (pnal_clear_file removes the file). *)
Definition file_clear (fullsize : nat) (fs : fsys) (dir : option str) (fname : str) : outcome fsys :=
  do p <- join dir fname fullsize;
  match p with None => Ok fs | Some path => Ok (fs_upd fs path None) end.

(** Histories of one directory. *)
Inductive fop :=
| FSave (fname : str) (obj : list Z) (e : save_end)
| FSaveIfMod (fname : str) (obj : list Z) (e : save_end)
| FClear (fname : str).

Definition fstep (fullsize : nat) (dir : option str) (fs : fsys) (o : fop) : outcome fsys :=
  match o with
  | FSave f obj e => do r <- file_save fullsize fs dir f obj e; Ok (snd r)
  | FSaveIfMod f obj e => do r <- file_save_if_modified fullsize fs dir f obj e; Ok (snd r)
  | FClear f => file_clear fullsize fs dir f
  end.

Fixpoint frun (fullsize : nat) (dir : option str) (fs : fsys) (l : list fop) : outcome fsys :=
  match l with
  | [] => Ok fs
  | o :: r => do fs' <- fstep fullsize dir fs o; frun fullsize dir fs' r
  end.
