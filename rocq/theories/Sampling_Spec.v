(** * Specifications for sampling, distributions and population splits. *)

From Coq Require Import List ZArith QArith Qround.
From Verif Require Import SpecBase.
Import ListNotations.

(** Draw [r] designates state [i] of the cumulative row [F]: [F i] is the first
    cumulative value strictly above [r]. *)
Definition designates (F : list Q) (r : Q) (i : nat) : Prop :=
  exists c, at_ F i c /\ r < c /\ forall j d, (j < i)%nat -> at_ F j d -> d <= r.

(** Every cumulative value is at most the draw: no state is designated. *)
Definition exhausted (F : list Q) (r : Q) : Prop := forall j d, at_ F j d -> d <= r.

(** Left end of the interval of state [i] in a cumulative row. *)
Definition left_end (F : list Q) (i : nat) (lo : Q) : Prop :=
  match i with
  | O => lo = 0
  | S j => at_ F j lo
  end.

(** Mass strictly before state [i] of a probability row. *)
Definition mass_before (p : list Q) (i : nat) : Q := total (firstn i p).

(** Admissible cumulative rows for a tolerance. *)
Definition admissible_cdf (eps : Q) (row : list Q) : Prop :=
  row <> [] /\ nondecreasing row /\
  (forall i x, at_ row i x -> 0 <= x /\ x <= 1 + eps) /\
  (forall x, at_ row (length row - 1) x -> 1 - eps < x /\ x < 1 + eps).

(** [out] is the rescaling of [row] by its own mass [m]. *)
Definition rescaled_by (m : Q) (row out : list Q) : Prop :=
  length out = length row /\
  forall i x y, at_ row i x -> at_ out i y -> y * m == x.

(** Entry [i] of an overridden array. *)
Definition overridden {A} (base : list A) (ext : list (option A)) (out : list A) : Prop :=
  length out = length base /\
  (forall i v, at_ ext i (Some v) -> at_ out i v) /\
  (forall i v, at_ ext i None -> at_ base i v -> at_ out i v).

(** Number of the [n] equally spaced points of [0,1] that are at most [c]. *)
Definition points_up_to (n : nat) (c : Q) : Z := Qfloor (c * inject_Z (Z.of_nat n - 1)) + 1.
