(** Common helpers: functional arrays, fixed-width arithmetic, byte lists.
    Nothing in this file models code of /repo; it is the vocabulary of the
    models. *)
From Coq Require Import List ZArith Arith Bool Lia.
Import ListNotations.
Local Open Scope Z_scope.

(** Outcome of running C code: a value, or one of the ways in which the C
    program leaves the defined world. *)
Inductive outcome (A : Type) : Type :=
| Ok (a : A)          (* normal return *)
| AssertFail          (* a CC_ASSERT does not hold *)
| Ub.                 (* undefined behaviour: out-of-bounds, division by zero *)
Arguments Ok {A} _.
Arguments AssertFail {A}.
Arguments Ub {A}.

Definition obind {A B} (x : outcome A) (f : A -> outcome B) : outcome B :=
  match x with Ok a => f a | AssertFail => AssertFail | Ub => Ub end.

Notation "'do' x <- a ; b" := (obind a (fun x => b))
  (at level 200, x pattern, a at level 100, b at level 200, right associativity).

(** Functional arrays indexed by nat. *)
Definition upd {A} (f : nat -> A) (i : nat) (v : A) : nat -> A :=
  fun j => if Nat.eqb j i then v else f j.

Lemma upd_same : forall A (f : nat -> A) i v, upd f i v i = v.
Proof. intros; unfold upd; now rewrite Nat.eqb_refl. Qed.

Lemma upd_other : forall A (f : nat -> A) i v j, j <> i -> upd f i v j = f j.
Proof.
  intros; unfold upd. destruct (Nat.eqb_spec j i); congruence.
Qed.

(** Fixed-width unsigned arithmetic. *)
Definition u8 (z : Z) : Z := z mod 256.
Definition u16 (z : Z) : Z := z mod 65536.
Definition u32 (z : Z) : Z := z mod 4294967296.

(** Cast of a uint32_t to int32_t (two's complement). *)
Definition s32 (z : Z) : Z := (z + 2147483648) mod 4294967296 - 2147483648.

Lemma u8_range : forall z, 0 <= u8 z < 256.
Proof. intros; apply Z.mod_pos_bound; lia. Qed.
Lemma u16_range : forall z, 0 <= u16 z < 65536.
Proof. intros; apply Z.mod_pos_bound; lia. Qed.
Lemma u32_range : forall z, 0 <= u32 z < 4294967296.
Proof. intros; apply Z.mod_pos_bound; lia. Qed.
Lemma u8_id : forall z, 0 <= z < 256 -> u8 z = z.
Proof. intros; apply Z.mod_small; lia. Qed.
Lemma u16_id : forall z, 0 <= z < 65536 -> u16 z = z.
Proof. intros; apply Z.mod_small; lia. Qed.
Lemma u32_id : forall z, 0 <= z < 4294967296 -> u32 z = z.
Proof. intros; apply Z.mod_small; lia. Qed.

(** The signed view of the difference of two wrapped clock values is the true
    difference as long as that is within half the range. *)
Lemma s32_diff : forall a b,
  -2147483648 <= a - b < 2147483648 ->
  s32 (u32 (u32 a - u32 b)) = a - b.
Proof.
  intros a b H. unfold s32, u32.
  replace ((a mod 4294967296 - b mod 4294967296) mod 4294967296)
    with ((a - b) mod 4294967296)
    by (rewrite Zminus_mod; reflexivity).
  rewrite Zplus_mod_idemp_l.
  rewrite Z.mod_small by lia. lia.
Qed.

