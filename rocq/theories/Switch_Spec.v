(** * Specification vocabulary for simulators whose tables follow the calendar. *)

From Coq Require Import List ZArith QArith Bool Arith.
From Verif Require Import SpecBase Activity_Spec.
Import ListNotations.

(** Instants are microseconds since Monday 0001-01-01 at midnight. *)
Definition ten : Z := 600 * 1000000.
Definition a_day : Z := 24 * 3600 * 1000000.

(** The days (Monday is 1) that share their tables with the day of [t]. *)
Definition alike (t : Z) : list Z := if ((t / a_day) mod 7 <? 5)%Z then [1; 2; 3; 4; 5]%Z else [6; 7]%Z.

(** Matrices, labels and starting pdf that fit together. *)
Definition fitting {L} (tpms : list (list (list Q))) (labels : list L) (pdf : list Q) : Prop :=
  tpms <> [] /\ labels <> [] /\ (forall t m, at_ tpms t m -> stochastic (length labels) m) /\
  length pdf = length labels /\ is_pdf pdf.

Section Calendar.
  Local Open Scope Z_scope.
  (** Steps begin at [first], [first + ten], ...; [r] is the time of day of the refresh.
      [b] is the beginning of a step before [t] at the refresh time. *)
  Definition refreshed (r first t b : Z) : Prop :=
    b mod a_day = r /\ first <= b < t /\ (ten | b - first).

  Definition last_of (P : Z -> Prop) (b : Z) : Prop := P b /\ forall b', P b' -> b' <= b.

  (** The tables in force for the step that begins at [t] are those of the day of the
      end of the last step that began at the refresh time; those of the day of [start]
      before any such step. *)
  Definition in_force (r start first t : Z) (days : list Z) : Prop :=
    (exists b, last_of (refreshed r first t) b /\ days = alike (b + ten)) \/
    ((forall b, ~ refreshed r first t b) /\ days = alike start).

  (** Steps at whose end the tables changed. *)
  Definition changed (r start first t b : Z) : Prop :=
    refreshed r first t b /\ exists days, in_force r start first b days /\ days <> alike (b + ten).

  (** Number (not reduced) of the matrix used by the step that begins at [t]: the number
      of steps since the change of tables counted from one, the change taking place at
      the end of the step that began at [b]. *)
  Definition matrix_number (r start first t : Z) (k : nat) : Prop :=
    (exists b, last_of (changed r start first t) b /\ Z.of_nat k * ten = t - b) \/
    ((forall b, ~ changed r start first t b) /\ (Z.of_nat k - 1) * ten = t - first).
End Calendar.

(** Persons in state [x] move with row [x] of the matrix and draws [u]. *)
Definition moves (m : list (list Q)) (u : nat -> Q) (before after : list nat) : Prop :=
  length after = length before /\
  forall j x, at_ before j x -> exists row x', at_ m x row /\ selects row (u j) x' /\ at_ after j x'.

(** Same labels at new positions; a label without a single new position is lost and
    replaced by the first one. *)
Definition relabelled {L} (old new : list L) (before after : list nat) : Prop :=
  length after = length before /\
  forall j x, at_ before j x -> exists lab, at_ old x lab /\
    (forall p, sole_position new lab p -> at_ after j p) /\
    ((forall p, ~ sole_position new lab p) -> at_ after j 0%nat).

(** ** Individuals: tables are loaded again after every step begun at the refresh time. *)
Definition renewed_number (aware : bool) (r first t : Z) (k : nat) : Prop :=
  (aware = true /\ exists b, last_of (refreshed r first t) b /\ (Z.of_nat k * ten = t - b)%Z) \/
  ((aware = false \/ forall b, ~ refreshed r first t b) /\ ((Z.of_nat k - 1) * ten = t - first)%Z).

(** ** The refresh time of CREST is midnight. *)

(** A midnight between [first] and [t] where the tables of the two days differ. *)
Definition turn (first t b : Z) : Prop :=
  (b mod a_day = 0 /\ first < b < t)%Z /\ alike (b - 1) <> alike b.

(** Number of the ten minutes of the day in which [t] falls. *)
Definition slot (t : Z) : Z := ((t mod a_day) / ten)%Z.
