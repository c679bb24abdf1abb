(** Model of the comparison between what a controller expects and what is plugged:
    src/device/pf_cmdev.c 4264-4589, and of the module difference block:
    src/device/pf_block_writer.c 500-692. *)
From Coq Require Import List ZArith Arith Bool.
From Verif Require Import Base BlockModel IdentModel.
Import ListNotations.
Local Open Scope Z_scope.

(** * Arrays *)

(** Reading and writing an element; an index outside the array is undefined behaviour. *)
Definition aget {A} (l : list A) (i : nat) : outcome A := match nth_error l i with Some x => Ok x | None => Ub end.
Definition aset {A} (l : list A) (i : nat) (v : A) : outcome (list A) := if (i <? length l)%nat then Ok (set_nth l i v) else Ub.

(** * The expected configuration *)

(** pf_types.h:1508-1518 pf_submodule_state_t. *)
Record xstate := mkXstate { x_add : Z; x_advice : bool; x_req : bool; x_dem : bool; x_fault : bool; x_ar : Z; x_ident : Z; x_format : bool }.
(** pf_types.h:1322-1359: the values that are used. *)
Definition ar_own : Z := 0.
Definition ar_locked_by_ioc : Z := 3.
Definition id_ok : Z := 0.
Definition id_wrong : Z := 2.
Definition id_no : Z := 3.
Definition no_module : Z := 0.
Definition proper_module : Z := 2.
Definition substitute : Z := 3.

(** pf_types.h:1520-1558 pf_exp_submodule_t, pf_exp_module_t, pf_exp_api_t and
    pf_exp_ident_t.  Left out: properties and data descriptors (BlockModel.v), valid. *)
Record xsub := mkXsub { xs_num : Z; xs_ident : Z; xs_state : xstate }.
Record xmod := mkXmod { xm_num : Z; xm_ident : Z; xm_state : Z; xm_n : nat; xm_subs : list xsub; xm_nd : nat; xm_diff : list nat }.
Record xapi := mkXapi { xa_num : Z; xa_n : nat; xa_mods : list xmod; xa_nd : nat; xa_diff : list nat }.
Record xid := mkXid { xi_n : nat; xi_apis : list xapi; xi_nd : nat; xi_diff : list nat }.

Definition m_state (v : Z) (m : xmod) := mkXmod (xm_num m) (xm_ident m) v (xm_n m) (xm_subs m) (xm_nd m) (xm_diff m).
Definition m_nd (v : nat) (m : xmod) := mkXmod (xm_num m) (xm_ident m) (xm_state m) (xm_n m) (xm_subs m) v (xm_diff m).
Definition a_nd (v : nat) (a : xapi) := mkXapi (xa_num a) (xa_n a) (xa_mods a) v (xa_diff a).

(** exp_module->submodule[s] = e. *)
Definition put_sub (m : xmod) (s : nat) (e : xsub) : outcome xmod :=
  do l <- aset (xm_subs m) s e; Ok (mkXmod (xm_num m) (xm_ident m) (xm_state m) (xm_n m) l (xm_nd m) (xm_diff m)).
(** exp_module->diff_submodule[i] = s and the counter. *)
Definition set_mdiff (m : xmod) (i s nd : nat) : outcome xmod :=
  do l <- aset (xm_diff m) i s; Ok (mkXmod (xm_num m) (xm_ident m) (xm_state m) (xm_n m) (xm_subs m) nd l).
Definition push_sub (m : xmod) (s : nat) : outcome xmod := set_mdiff m (xm_nd m) s (S (xm_nd m)).
(** exp_api->module[m] = e. *)
Definition put_mod (a : xapi) (m : nat) (e : xmod) : outcome xapi :=
  do l <- aset (xa_mods a) m e; Ok (mkXapi (xa_num a) (xa_n a) l (xa_nd a) (xa_diff a)).
Definition set_adiff (a : xapi) (i m nd : nat) : outcome xapi :=
  do l <- aset (xa_diff a) i m; Ok (mkXapi (xa_num a) (xa_n a) (xa_mods a) nd l).
Definition push_mod (a : xapi) (m : nat) : outcome xapi := set_adiff a (xa_nd a) m (S (xa_nd a)).
Definition put_xapi (i : xid) (a : nat) (e : xapi) : outcome xid :=
  do l <- aset (xi_apis i) a e; Ok (mkXid (xi_n i) l (xi_nd i) (xi_diff i)).
Definition push_api (i : xid) (a : nat) : outcome xid :=
  do l <- aset (xi_diff i) (xi_nd i) a; Ok (mkXid (xi_n i) (xi_apis i) (S (xi_nd i)) l).

(** * The comparison *)

Definition wrong_state : xstate := mkXstate 0 false false false false ar_own id_wrong true.

(** pf_cmdev.c:4344-4397 and 4510-4574: the state of one expected submodule, and whether it is
    a difference.  [me]: the connection.  The state is written in one step here. *)
Definition judge (me : nat) (r : option rsub) (e : xsub) : xstate * bool :=
  match r with
  | None => (mkXstate 0 false false false false ar_own id_no true, true)
  | Some z =>
    if negb (xs_ident e =? rs_ident z) then (wrong_state, true)
    else if owned z && negb (match rs_owner z with Some o => (o =? me)%nat | None => false end)
    then (mkXstate 0 false false false false ar_locked_by_ioc id_ok true, true)
    else if rs_fault z || rs_dem z || rs_req z
    then (mkXstate 0 false (rs_req z) (rs_dem z) (rs_fault z) ar_own id_ok true, true)
    else (mkXstate 0 false false false false ar_own id_ok true, false)
  end.

(** pf_cmdev.c:4341-4398: the loop over submodules [s], [s]+1, ...; [n] of them. *)
Fixpoint diff_subs (me : nat) (r : rslot) (n s : nat) (m : xmod) : outcome xmod :=
  match n with
  | O => Ok m
  | S n =>
    do e <- aget (xm_subs m) s;
    let '(st, d) := judge me (get_sub r (xs_num e)) e in
    do m1 <- put_sub m s (mkXsub (xs_num e) (xs_ident e) st);
    do m2 <- (if d then push_sub m1 s else Ok m1);
    diff_subs me r n (S s) m2
  end.

(** pf_cmdev.c:4325-4335: all submodules of a wrong module. *)
Fixpoint wrong_subs (n s : nat) (m : xmod) : outcome xmod :=
  match n with
  | O => Ok m
  | S n =>
    do e <- aget (xm_subs m) s;
    do m1 <- put_sub m s (mkXsub (xs_num e) (xs_ident e) wrong_state);
    do m2 <- set_mdiff m1 s s (xm_nd m1);
    wrong_subs n (S s) m2
  end.

(** pf_cmdev.c:4305-4402: one expected module; whether it is added to the differences
    of the API. *)
Definition diff_mod (me : nat) (r : rapi) (m : xmod) : outcome (xmod * bool) :=
  let m0 := m_nd 0 m in
  match get_slot r (xm_num m) with
  | None => Ok (m_state no_module m0, true)
  | Some y =>
    if negb (xm_ident m =? rl_ident y) then
      do m1 <- wrong_subs (xm_n m) 0 (m_nd (xm_n m) (m_state substitute m0)); Ok (m1, false)
    else
      do m1 <- diff_subs me y (xm_n m) 0 (m_state proper_module m0); Ok (m1, (0 <? xm_nd m1)%nat)
  end.

(** pf_cmdev.c:4303-4403. *)
Fixpoint diff_mods (me : nat) (r : rapi) (n ix : nat) (a : xapi) : outcome xapi :=
  match n with
  | O => Ok a
  | S n =>
    do m <- aget (xa_mods a) ix;
    do (m1, d) <- diff_mod me r m;
    do a1 <- put_mod a ix m1;
    do a2 <- (if d then push_mod a1 ix else Ok a1);
    diff_mods me r n (S ix) a2
  end.

(** pf_cmdev.c:4295-4300: all modules of an API that does not exist. *)
Fixpoint miss_mods (n ix : nat) (a : xapi) : outcome xapi :=
  match n with
  | O => Ok a
  | S n =>
    do m <- aget (xa_mods a) ix;
    do a1 <- put_mod a ix (m_nd 0 (m_state no_module m));
    do a2 <- set_adiff a1 ix ix (xa_nd a1);
    miss_mods n (S ix) a2
  end.

(** pf_cmdev.c:4285-4408: the loop over the expected APIs. *)
Fixpoint diff_apis (me : nat) (d : dev) (n ix : nat) (i : xid) : outcome xid :=
  match n with
  | O => Ok i
  | S n =>
    do a <- aget (xi_apis i) ix;
    match get_api d (xa_num a) with
    | None =>
      do a1 <- miss_mods (xa_n a) 0 (a_nd (xa_n a) a);
      do i1 <- put_xapi i ix a1;
      diff_apis me d n (S ix) i1
    | Some r =>
      do a1 <- diff_mods me r (xa_n a) 0 (a_nd 0 a);
      do i1 <- put_xapi i ix a1;
      do i2 <- (if (0 <? xa_nd a1)%nat then push_api i1 ix else Ok i1);
      diff_apis me d n (S ix) i2
    end
  end.

(** pf_cmdev.c:4264-4412 pf_cmdev_generate_module_diff. *)
Definition module_diff (me : nat) (d : dev) (i : xid) : outcome xid :=
  diff_apis me d (xi_n i) 0 (mkXid (xi_n i) (xi_apis i) 0 (xi_diff i)).

(** * The comparison after plugging a submodule *)

(** pf_cmdev.c:4508-4576: the loop over submodules for the one with this number. *)
Fixpoint one_sub (me : nat) (r : rslot) (t : Z) (n s : nat) (m : xmod) : outcome xmod :=
  match n with
  | O => Ok m
  | S n =>
    do e <- aget (xm_subs m) s;
    if negb (xs_num e =? t) then one_sub me r t n (S s) m
    else
      let '(st, d) := judge me (get_sub r (xs_num e)) e in
      do m1 <- put_sub m s (mkXsub (xs_num e) (xs_ident e) st);
      do m2 <- (if d then push_sub m1 s else Ok m1);
      one_sub me r t n (S s) m2
  end.

(** pf_cmdev.c:4488-4501; [mx]: index of the module. *)
Fixpoint one_wrong (mx : nat) (t : Z) (n s : nat) (m : xmod) : outcome xmod :=
  match n with
  | O => Ok m
  | S n =>
    do q <- aget (xm_subs m) mx;
    if xs_num q =? t then
      do e <- aget (xm_subs m) s;
      do m1 <- put_sub m s (mkXsub (xs_num e) (xs_ident e) wrong_state);
      set_mdiff m1 s s (S (xm_nd m1))
    else one_wrong mx t n (S s) m
  end.

(** pf_cmdev.c:4465-4580. *)
Definition one_mod (me : nat) (r : rapi) (sl t : Z) (mx : nat) (m : xmod) : outcome (xmod * bool) :=
  let m0 := m_nd 0 m in
  if negb (xm_num m =? sl) then Ok (m0, false)
  else
    match get_slot r (xm_num m) with
    | None => Ok (m_state no_module m0, true)
    | Some y =>
      if negb (xm_ident m =? rl_ident y) then
        do m1 <- one_wrong mx t (xm_n m) 0 (m_state substitute m0); Ok (m1, false)
      else
        do m1 <- one_sub me y t (xm_n m) 0 (m_state proper_module m0); Ok (m1, (0 <? xm_nd m1)%nat)
    end.

(** pf_cmdev.c:4463-4581. *)
Fixpoint one_mods (me : nat) (r : rapi) (sl t : Z) (n ix : nat) (a : xapi) : outcome xapi :=
  match n with
  | O => Ok a
  | S n =>
    do m <- aget (xa_mods a) ix;
    do (m1, d) <- one_mod me r sl t ix m;
    do a1 <- put_mod a ix m1;
    do a2 <- (if d then push_mod a1 ix else Ok a1);
    one_mods me r sl t n (S ix) a2
  end.

(** pf_cmdev.c:4449-4459. *)
Fixpoint one_miss (sl : Z) (n ix : nat) (a : xapi) : outcome xapi :=
  match n with
  | O => Ok a
  | S n =>
    do m <- aget (xa_mods a) ix;
    if xm_num m =? sl then
      do a1 <- put_mod a ix (m_nd 0 (m_state no_module m));
      set_adiff a1 ix ix (S (xa_nd a1))
    else one_miss sl n (S ix) a
  end.

(** pf_cmdev.c:4435-4586. *)
Fixpoint one_apis (me : nat) (d : dev) (ap sl t : Z) (n ix : nat) (i : xid) : outcome xid :=
  match n with
  | O => Ok i
  | S n =>
    do a <- aget (xi_apis i) ix;
    if negb (xa_num a =? ap) then
      do i1 <- put_xapi i ix (a_nd 0 a);
      one_apis me d ap sl t n (S ix) i1
    else
      match get_api d ap with
      | None =>
        do a1 <- one_miss sl (xa_n a) 0 (a_nd 0 a);
        do i1 <- put_xapi i ix a1;
        one_apis me d ap sl t n (S ix) i1
      | Some r =>
        do a1 <- one_mods me r sl t (xa_n a) 0 (a_nd 0 a);
        do i1 <- put_xapi i ix a1;
        do i2 <- (if (0 <? xa_nd a1)%nat then push_api i1 ix else Ok i1);
        one_apis me d ap sl t n (S ix) i2
      end
  end.

(** pf_cmdev.c:4414-4587 pf_cmdev_generate_submodule_diff. *)
Definition submodule_diff (me : nat) (d : dev) (ap sl t : Z) (i : xid) : outcome xid :=
  one_apis me d ap sl t (xi_n i) 0 (mkXid (xi_n i) (xi_apis i) 0 (xi_diff i)).

(** * The block *)

Definition b2z (b : bool) : Z := if b then 1 else 0.
Definition bt_module_diff : Z := 33028.

(** pf_block_writer.c:538-548: the bits of a submodule state. *)
Definition state_bits (x : xstate) : Z :=
  u16 (put_bits (b2z (x_format x)) 1 15 (put_bits (x_ident x) 4 11 (put_bits (x_ar x) 4 7 (put_bits (b2z (x_fault x)) 1 6
    (put_bits (b2z (x_dem x)) 1 5 (put_bits (b2z (x_req x)) 1 4 (put_bits (b2z (x_advice x)) 1 3 (put_bits (x_add x) 3 0 0)))))))).

(** pf_block_writer.c:508-549 pf_put_submodule_diff. *)
Definition put_submodule_diff (be : bool) (e : xsub) : writer :=
  put_u16 be (xs_num e) ;; put_u32 be (if x_ident (xs_state e) =? id_no then 0 else xs_ident e) ;; put_u16 be (state_bits (xs_state e)).

(** The loops over differences: the element the index points to. *)
Fixpoint put_diffs {A} (f : A -> writer) (arr : list A) (diff : list nat) (n ix : nat) : writer :=
  match n with
  | O => wskip
  | S n => fun w => do k <- aget diff ix; do e <- aget arr k; do w1 <- f e w; put_diffs f arr diff n (S ix) w1
  end.

(** pf_block_writer.c:560-606 pf_put_module_diff. *)
Definition put_module_diff (be : bool) (m : xmod) : writer :=
  put_u16 be (xm_num m) ;; put_u32 be (if xm_state m =? no_module then 0 else xm_ident m) ;; put_u16 be (xm_state m) ;;
  (if xm_state m =? no_module then put_u32 be 0
   else put_u16 be (u16 (Z.of_nat (xm_nd m))) ;; put_diffs (put_submodule_diff be) (xm_subs m) (xm_diff m) (xm_nd m) 0).

(** pf_block_writer.c:617-638 pf_put_api_diff. *)
Definition put_api_diff (be : bool) (a : xapi) : writer :=
  put_u32 be (xa_num a) ;; put_u16 be (u16 (Z.of_nat (xa_nd a))) ;; put_diffs (put_module_diff be) (xa_mods a) (xa_diff a) (xa_nd a) 0.

(** pf_block_writer.c:640-693 pf_put_ar_diff; None: no connection. *)
Definition put_ar_diff (be : bool) (o : option xid) : writer :=
  match o with
  | None => wskip
  | Some i =>
    if (0 <? xi_nd i)%nat then
      put_block be bt_module_diff (put_u16 be (u16 (Z.of_nat (xi_nd i))) ;; put_diffs (put_api_diff be) (xi_apis i) (xi_diff i) (xi_nd i) 0)
    else wskip
  end.
