(** * Specifications for time-aware simulators and callbacks. *)

From Coq Require Import List ZArith Bool.
From Verif Require Import Prelude SpecBase Time_Model.
Import ListNotations.
Local Open Scope Z_scope.

(** ** Calendar: Python's [date.toordinal] in closed form. *)

Definition leap_year (y : Z) : Prop := (4 | y) /\ (~ (100 | y) \/ (400 | y)).

Definition days_before_year (y : Z) : Z :=
  365 * (y - 1) + (y - 1) / 4 - (y - 1) / 100 + (y - 1) / 400.

(** Cumulated lengths of the months of a normal year. *)
Definition days_before_month (m : Z) : Z :=
  nth (Z.to_nat (m - 1)) [0; 31; 59; 90; 120; 151; 181; 212; 243; 273; 304; 334] 0.

Definition ordinal (leap : bool) (d : date) : Z :=
  days_before_year (year d) + days_before_month (month d) + (if leap && (2 <? month d) then 1 else 0) + day d.

(** ** Initialization *)

(** [d] is the latest instant at time of day [t] that is not after [start]. *)
Definition latest_occurrence (t start d : Z) : Prop :=
  d <= start /\ d mod us_per_day = t /\
  forall d', d' mod us_per_day = t -> d' <= start -> d' <= d.

Definition resolves (i : init_time) (start d : Z) : Prop :=
  match i with
  | AtTime t => latest_occurrence t start d
  | AtDatetime t => d = t
  | AtNone => d = start
  | AtOther => False
  end.

(** [n] is the number of whole steps between [d] and [start]. *)
Definition whole_steps (step d start n : Z) : Prop := n * step <= start - d < (n + 1) * step.

Section Time.
  Variable U : Type.
  Implicit Types s : tsim U.

  Definition advanced s s' : Prop :=
    now s' = now s + step_size s /\ step_size s' = step_size s /\ ticks s' = ticks s + 1.

  (** A step method that moves the clock as every time-aware step does. *)
  Definition advances (step : tsim U -> result (tsim U)) : Prop :=
    forall s s', step s = Ok s' -> advanced s s'.

  (** What the simulator did besides moving its clock. *)
  Definition called_after (on body : U -> result U) s s' : Prop :=
    exists u, body (user s) = Ok u /\ on u = Ok (user s').
  Definition called_before (on body : U -> result U) s s' : Prop :=
    exists u, on (user s) = Ok u /\ body u = Ok (user s').
  Definition not_called (body : U -> result U) s s' : Prop := body (user s) = Ok (user s').
End Time.

(** The clock crosses the time of day [t] in the half-open interval. *)
Definition crosses (t a b : Z) : Prop := exists x, x mod us_per_day = t /\ a < x <= b.

(** Number of instants at time of day [t] in [(a, b]]. *)
Definition crossings (t a b : Z) : Z := (b - t) / us_per_day - (a - t) / us_per_day.
