(** * Specification: edit scripts. *)

From Coq Require Import List.
Import ListNotations.

(** One edit somewhere in a sequence: an insertion, a deletion or a replacement. *)
Inductive edit {A : Type} : list A -> list A -> Prop :=
| insertion : forall u x v, edit (u ++ v) (u ++ x :: v)
| deletion : forall u x v, edit (u ++ x :: v) (u ++ v)
| replacement : forall u x y v, edit (u ++ x :: v) (u ++ y :: v).

(** A script of [n] edits. *)
Inductive script {A : Type} : nat -> list A -> list A -> Prop :=
| script_done : forall s, script 0 s s
| script_edit : forall n s t r, edit s t -> script n t r -> script (S n) s r.

(** [n] is the least number of edits. *)
Definition least_edits {A : Type} (n : nat) (s t : list A) : Prop := script n s t /\ forall m, script m s t -> n <= m.
