(** * Specification vocabulary for distances of arrays. *)

From Coq Require Import List Reals Arith.
From Verif Require Import SpecBase.
Import ListNotations.
Local Open Scope R_scope.

(** A table of [n] rows of [m] entries. *)
Definition tbl {A} (n m : nat) (x : list (list A)) : Prop := length x = n /\ forall i r, at_ x i r -> length r = m.

(** Entry (i, j). *)
Definition entry {A} (x : list (list A)) (i j : nat) (v : A) : Prop := exists r, at_ x i r /\ at_ r j v.

(** The sum of [f 0], ..., [f (n - 1)]. *)
Fixpoint sum_to (n : nat) (f : nat -> R) : R := match n with O => 0 | S k => sum_to k f + f k end.

(** The numbers of a row and of a table; only used inside. *)
Definition num (r : list R) (j : nat) : R := nth j r 0.
Definition val (x : list (list R)) (i j : nat) : R := num (nth i x []) j.

(** The same array added to, or the array multiplied by a number. *)
Definition shifted (x z y : list (list R)) : Prop :=
  forall i j v, entry y i j v <-> exists a b, entry x i j a /\ entry z i j b /\ v = a + b.
Definition scaled (c : R) (x y : list (list R)) : Prop :=
  forall i j v, entry y i j v <-> exists a, entry x i j a /\ v = c * a.

(** Shapes that cannot be broadcast along one dimension. *)
Definition clash (n n' : nat) : Prop := n <> n' /\ n <> 1%nat /\ n' <> 1%nat.
