(** Model of the calls that set the state of the device for all connections: src/device/pnet_api.c. *)
From Coq Require Import List ZArith Arith Bool.
From Verif Require Import Base PpmModel.
Import ListNotations.

(** A connection (pf_types.h pf_ar_t): in_use, nbr_iocrs and the array iocrs. *)
Record conn := mkConn { n_used : bool; n_nbr : nat; n_crs : list iocr }.

Definition replace_at {A} (l : list A) (ix : nat) (x : A) : list A := firstn ix l ++ x :: skipn (S ix) l.

(** pf_ppm.c:833-856 pf_ppm_set_data_status_state, 858-881 pf_ppm_set_data_status_redundancy and 883-906
    pf_ppm_set_data_status_provider.  [drv]: whether write_data_status of the driver succeeds (pf_ppm_driver_sw.c:260-266:
    always).  Also whether 0 is returned. *)
Definition set_cr (drv : iocr -> bool) (s : dset) (c : conn) (ix : nat) : outcome (conn * bool) :=
  match nth_error (n_crs c) ix with
  | None => Ub
  | Some o => let o' := dset_step o s in Ok (mkConn (n_used c) (n_nbr c) (replace_at (n_crs c) ix o'), drv o')
  end.

(** pnet_api.c:381-387, 412-418 and 443-449: the loop over the CRs. *)
Fixpoint cr_loop (drv : iocr -> bool) (s : dset) (n ix : nat) (c : conn) (ret : bool) : outcome (conn * bool) :=
  match n with
  | O => Ok (c, ret)
  | S k => do x <- set_cr drv s c ix; cr_loop drv s k (S ix) (fst x) (if snd x then ret else false)
  end.

(** pnet_api.c:376-389, 407-420 and 438-451: the loop over the connections, with pf_cmrpc.c:842-850
    pf_ar_find_by_index (NULL outside of the table). *)
Fixpoint ar_loop (drv : iocr -> bool) (s : dset) (n ix : nat) (ars : list conn) (ret : bool) : outcome (list conn * bool) :=
  match n with
  | O => Ok (ars, ret)
  | S k =>
      match nth_error ars ix with
      | Some c =>
          if n_used c then do x <- cr_loop drv s (n_nbr c) 0 c ret; ar_loop drv s k (S ix) (replace_at ars ix (fst x)) (snd x)
          else ar_loop drv s k (S ix) ars ret
      | None => ar_loop drv s k (S ix) ars ret
      end
  end.

(** pnet_api.c:363-392 pnet_set_primary_state, 394-423 pnet_set_redundancy_state and 425-454
    pnet_set_provider_state.  [max_ar]: PNET_MAX_AR. *)
Inductive setter := SPrimary | SRedundancy | SProvider.
Definition pnet_set (max_ar : nat) (drv : iocr -> bool) (k : setter) (v : bool) (ars : list conn) : outcome (list conn * bool) :=
  ar_loop drv (match k with SPrimary => DPrimary v | SRedundancy => DRedundancy v | SProvider => DProvider v end) max_ar 0 ars true.
