(** Model of the table of connections and of their handles (AREP): src/device/pf_cmrpc.c. *)
From Coq Require Import List ZArith Arith Bool.
From Verif Require Import Base StateModel.
Import ListNotations.

(** A connection (pf_types.h pf_ar_t): in_use and arep.  [e_id] stands for all the other members: it tells
    which connect request the entry was taken for (0 after memset). *)
Record entry := mkEntry { e_used : bool; e_arep : nat; e_id : nat }.
Definition cleared : entry := mkEntry false 0 0.

(** pf_types.h:2994-2996: cmrpc_nbr_ars, the array cmrpc_ar_order and the array cmrpc_ar. *)
Record table := mkTable { t_nbr : nat; t_order : list nat; t_ars : list entry }.

(** The instance after memset: PNET_MAX_AR entries in cmrpc_ar_order and one more in cmrpc_ar. *)
Definition table0 (max_ar : nat) : table := mkTable 0 (repeat 0 max_ar) (repeat cleared (S max_ar)).

Definition store {A} (l : list A) (ix : nat) (x : A) : outcome (list A) :=
  if ix <? length l then Ok (replace_at l ix x) else Ub.
Definition load {A} (l : list A) (ix : nat) : outcome A :=
  match nth_error l ix with Some x => Ok x | None => Ub end.

(** pf_cmrpc.c:713-718: the first entry that is not in use. *)
Fixpoint first_free (l : list entry) (ix : nat) : nat :=
  match l with
  | [] => ix
  | e :: t => if e_used e then first_free t (S ix) else ix
  end.

(** pf_cmrpc.c:704-751 pf_ar_allocate, and the caller that fills the entry ([id]).  The index of the entry, or
    nothing (-1).  Not modelled: mutex, log, and the init calls of lines 728-731, that set members of
    the entry which are not here. *)
Definition allocate (max_ar : nat) (t : table) (id : nat) : outcome (table * option nat) :=
  let ix := first_free (t_ars t) 0 in
  if ix <? length (t_ars t) then
    if ix <? max_ar then
      do ars <- store (t_ars t) ix (mkEntry true (S ix) id);
      do o <- store (t_order t) (t_nbr t) ix;
      Ok (mkTable (S (t_nbr t)) o ars, Some ix)
    else
      do ars <- store (t_ars t) ix (mkEntry true 0 id);
      Ok (mkTable (t_nbr t) (t_order t) ars, Some ix)
  else Ok (t, None).

(** pf_cmrpc.c:769-777: where the index stands in cmrpc_ar_order; [n]: entries left. *)
Fixpoint search (o : list nat) (x n i : nat) : outcome (option nat) :=
  match n with
  | O => Ok None
  | S k => do y <- load o i; if y =? x then Ok (Some i) else search o x k (S i)
  end.

(** pf_cmrpc.c:778-782: the following ones are moved; [n]: moves left. *)
Fixpoint move (o : list nat) (n i : nat) : outcome (list nat) :=
  match n with
  | O => Ok o
  | S k => do y <- load o (S i); do o' <- store o i y; move o' k (S i)
  end.

(** pf_cmrpc.c:758-802 pf_ar_release.  An index outside of the table stands for NULL. *)
Definition release (t : table) (ix : nat) : outcome table :=
  match nth_error (t_ars t) ix with
  | None => Ok t
  | Some e =>
      if e_used e then
        do x <- (if 0 <? e_arep e then
                   do p <- search (t_order t) (e_arep e - 1) (t_nbr t) 0;
                   match p with
                   | Some i => let nbr := t_nbr t - 1 in do o <- move (t_order t) (nbr - i) i; Ok (nbr, o)
                   | None => Ok (t_nbr t, t_order t)
                   end
                 else Ok (t_nbr t, t_order t));
        do ars <- store (t_ars t) ix cleared;
        Ok (mkTable (fst x) (snd x) ars)
      else Ok t
  end.

(** pf_cmrpc.c:852-868 pf_ar_find_by_arep: the index of the entry found.  [arep]: uint32_t; the index is
    a uint16_t. *)
Definition find_by_arep (t : table) (arep : Z) : option nat :=
  if (0 <? arep)%Z then
    let ix := Z.to_nat ((arep - 1) mod 65536) in
    match nth_error (t_ars t) ix with
    | Some e => if e_used e then Some ix else None
    | None => None
    end
  else None.

(** What happens to the table: entries are taken and given back. *)
Inductive op := OTake (id : nat) | OGive (ix : nat).
(** What is seen of it. *)
Inductive seen := STaken (id : nat) (ix : option nat) | SGiven (ix : nat).

Definition step (max_ar : nat) (t : table) (o : op) : outcome (table * seen) :=
  match o with
  | OTake id => do x <- allocate max_ar t id; Ok (fst x, STaken id (snd x))
  | OGive ix => do t' <- release t ix; Ok (t', SGiven ix)
  end.

Fixpoint run (max_ar : nat) (t : table) (l : list op) : outcome (table * list seen) :=
  match l with
  | [] => Ok (t, [])
  | o :: l' => do x <- step max_ar t o; do y <- run max_ar (fst x) l'; Ok (fst y, snd x :: snd y)
  end.
