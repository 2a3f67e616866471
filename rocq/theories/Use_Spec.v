(** * Specification vocabulary for the relative use of bulbs. *)

From Coq Require Import List Reals Arith.
From Verif Require Import SpecBase.
Import ListNotations.
Local Open Scope R_scope.

(** A value, possibly infinite, above [t]. *)
Definition above (v : option R) (t : R) : Prop := match v with None => True | Some x => t < x end.

(** [v] is before [w], the infinity last. *)
Definition smaller (v w : option R) : Prop :=
  match v, w with Some x, Some y => x < y | Some _, None => True | None, _ => False end.

(** Entry [j] of row [h]. *)
Definition cell {A} (m : list (list A)) (h j : nat) (x : A) : Prop := exists row, at_ m h row /\ at_ row j x.
