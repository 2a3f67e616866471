(** * Specification side for the load metrics. *)

From Coq Require Import List ZArith QArith Qabs Bool.
From Verif Require Import SpecBase.
Import ListNotations.

Open Scope Q_scope.

(** A rectangular array. *)
Definition box (w : nat) (rs : list (list Q)) : Prop := forall r, In r rs -> length r = w.

(** The highest value of a profile. *)
Definition peak (l : list Q) (m : Q) : Prop := (exists x, In x l /\ x == m) /\ forall x, In x l -> x <= m.

(** Load of all the profiles together at time [j]. *)
Definition together (rs : list (list Q)) (j : nat) : Q := total (map (fun r => nth j r 0) rs).
Definition peak_together (w : nat) (rs : list (list Q)) (m : Q) : Prop :=
  (exists j, (j < w)%nat /\ together rs j == m) /\ forall j, (j < w)%nat -> together rs j <= m.

(** All profiles reach their peak at the same time. *)
Definition coincide (w : nat) (rs : list (list Q)) : Prop :=
  exists j, (j < w)%nat /\ forall r x, In r rs -> In x r -> x <= nth j r 0.

Definition count_of (n : nat) : Q := inject_Z (Z.of_nat n).

(** Number of entries with a property, by positions. *)
Inductive how_many (P : Q -> Prop) : list Q -> nat -> Prop :=
| hm_nil : how_many P [] 0
| hm_yes : forall x l n, P x -> how_many P l n -> how_many P (x :: l) (S n)
| hm_no : forall x l n, ~ P x -> how_many P l n -> how_many P (x :: l) n.

Definition sorted_up (l : list Q) : Prop := forall i x y, at_ l i x -> at_ l (S i) y -> x <= y.
Definition strictly_up (l : list Q) : Prop := forall i x y, at_ l i x -> at_ l (S i) y -> x < y.

(** Changes between neighbouring times of the same profile. *)
Definition change_of (rs : list (list Q)) (v : Q) : Prop :=
  exists r i a b, In r rs /\ at_ r i a /\ at_ r (S i) b /\ v == Qabs (a - b).

(** The changes of one profile in order of time. *)
Fixpoint steps (r : list Q) : list Q :=
  match r with
  | a :: ((b :: _) as t) => Qabs (a - b) :: steps t
  | _ => []
  end.
Definition all_steps (rs : list (list Q)) : list Q := concat (map steps rs).
