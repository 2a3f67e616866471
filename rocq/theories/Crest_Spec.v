(** * Vocabulary for the statements about the CREST spreadsheet. *)

From Coq Require Import String List ZArith QArith Bool Arith.
From Verif Require Import Prelude SpecBase Subgroup_Model OwnDict_Spec.
Import ListNotations.

(** A sheet of [times] blocks of [n] rows, whose numbers for the [n] states
    follow two other columns. *)
Definition wide_sheet (n : nat) (sheet : list (list Q)) : Prop := forall r row, at_ sheet r row -> (n + 2 <= length row)%nat.
Definition numbers (n : nat) (row l : list Q) : Prop := length l = n /\ forall j x, at_ l j x -> at_ row (j + 2) x.

(** What becomes of the numbers [l] of state [i]: [out] is proportional to them,
    or stays in [i] when they are zero. *)
Definition settles (l : list Q) (i : nat) (out : list Q) : Prop :=
  length out = length l /\
  (total l == 0 -> forall j y, at_ out j y -> y == if Nat.eqb j i then 1 else 0) /\
  (~ total l == 0 -> forall j x y, at_ l j x -> at_ out j y -> y * total l == x).

(** State [i] of [n] residents: [a] at home and [b] active. *)
Definition is_state (n i a b : nat) : Prop := (a <= n)%nat /\ (b <= n)%nat /\ i = (a * (n + 1) + b)%nat.

(** A subgroup of the spreadsheet. *)
Definition weekdays : value := VInts [1; 2; 3; 4; 5]%Z.
Definition weekend : value := VInts [6; 7]%Z.
Definition has_value (sg : subgroup) (key : string) (v : value) : Prop := dget String.eqb sg key = Some v.
Definition crest_subgroup (sg : subgroup) (n : nat) (day : string) : Prop :=
  (1 <= n <= 6)%nat /\ has_value sg "n_residents" (VInt (Z.of_nat n)) /\
  ((day = "d"%string /\ has_value sg "weekday" weekdays) \/ (day = "e"%string /\ has_value sg "weekday" weekend)).

(** No type is the numbered copy of another. *)
Definition no_numbered (types : list string) : Prop :=
  (forall t, In t types -> t <> EmptyString) /\
  forall s t k, In s types -> In t types -> (2 <= k)%nat -> s <> copy t k.

(** Number of a three-dimensional array. *)
Definition at3 (m : list (list Q)) (i j : nat) (x : Q) : Prop := exists row, at_ m i row /\ at_ row j x.

(** The bulbs of a house: numbers above zero, other sockets are empty. *)
Definition bulbs_of (house : list (option Q)) : list Q :=
  filter (fun x => negb (Qle_bool x 0)) (flat_map (fun s => match s with Some x => [x] | None => [] end) house).
Definition number_of (c : Q) (l : list Q) : nat := length (filter (fun x => Qeq_bool x c) l).
Definition increasing (l : list Q) : Prop := forall i j x y, (i < j)%nat -> at_ l i x -> at_ l j y -> x < y.
