(** * Specifications for the climate simulators. *)

From Coq Require Import List ZArith QArith Bool Arith.
From Verif Require Import Prelude SpecBase Time_Model.
Import ListNotations.
Local Open Scope Z_scope.

Definition a_minute : Z := 60 * 1000000.

(** The instant [k] minutes after [t]. *)
Definition later (t : Z) (k : nat) : Z := t + Z.of_nat k * a_minute.

(** Whole minutes from midnight to [t]. *)
Definition minutes_into_day (t : Z) : nat := Z.to_nat (t mod us_per_day / a_minute).

(** Both instants lie in the same month of the same year. *)
Definition same_month (a b : Z) : Prop := year (date_at a) = year (date_at b) /\ month (date_at a) = month (date_at b).

(** What an irradiance simulator created at [start] shows after [k] steps: nothing at
    first, then what its last step computed. *)
Definition shown (f : Z -> Q) (initial : Q) (start : Z) (k : nat) : Q :=
  match k with O => initial | S k => f (later start k) end.

(** Everything shown during its [d]-th stretch of 1440 minutes. *)
Definition stretch (f : Z -> Q) (initial : Q) (start : Z) (d : nat) : list Q :=
  map (fun i => shown f initial start (d * N.to_nat 1440 + i)) (seq 0 (N.to_nat 1440)).

(** The clearness of a new irradiance simulator, which ran from midnight to [start]. *)
Definition clearness_at_start (f : Z -> Q) (initial : Q) (start : Z) : Q :=
  if (minutes_into_day start =? 0)%nat then initial else f (start - a_minute).
