(** * Vocabulary shared by the specifications.

    Deliberately independent of [Prelude]: specifications talk about plain
    lists, rationals and integers through the standard library only. *)

From Coq Require Import List QArith ZArith.
Import ListNotations.

(** Sum of a list of rationals / naturals. *)
Definition total (l : list Q) : Q := fold_right Qplus 0 l.
Definition total_nat (l : list nat) : nat := fold_right Nat.add 0%nat l.
Definition total_Z (l : list Z) : Z := fold_right Z.add 0%Z l.

(** [at_ l i x]: position [i] of [l] exists and holds [x]. *)
Definition at_ {A} (l : list A) (i : nat) (x : A) : Prop := nth_error l i = Some x.

(** Rationals lists that are equal entry by entry. *)
Definition eqQ_list (l m : list Q) : Prop := Forall2 Qeq l m.

Definition nonneg (l : list Q) : Prop := forall i x, at_ l i x -> 0 <= x.

(** A probability distribution. *)
Definition is_pdf (l : list Q) : Prop := nonneg l /\ total l == 1.

(** Non-decreasing sequences. *)
Definition nondecreasing (l : list Q) : Prop :=
  forall i x y, at_ l i x -> at_ l (S i) y -> x <= y.

(** Closes closed computational conjunctions in examples. *)
Ltac conj_vm :=
  repeat match goal with |- _ /\ _ => split end; try (vm_compute; reflexivity).
