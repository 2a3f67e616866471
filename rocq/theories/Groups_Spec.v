(** * Specification vocabulary for simulators of subgroups. *)

From Coq Require Import List ZArith Bool.
From Verif Require Import SpecBase.
Import ListNotations.
Local Open Scope Z_scope.

(** The number of subgroups before [i] that have households, and their number of
    households. *)
Fixpoint rank (numbers : list Z) (i : nat) : nat :=
  match numbers, i with
  | n :: t, S i => if 0 <? n then S (rank t i) else rank t i
  | _, _ => O
  end.

Fixpoint before (numbers : list Z) (i : nat) : nat :=
  match numbers, i with
  | n :: t, S i => (Z.to_nat n + before t i)%nat
  | _, _ => O
  end.
