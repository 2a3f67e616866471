(** * Specification of the position of the sun. *)

From Coq Require Import Reals ZArith.
Local Open Scope R_scope.

(** Directions, in the frame of the equator whose first axis points to the meridian
    of the observer. *)
Record direction : Type := mkDir { d_x : R; d_y : R; d_z : R }.

Definition dot (u v : direction) : R := d_x u * d_x v + d_y u * d_y v + d_z u * d_z v.

Definition degrees (a : R) : R := a * PI / 180.

Definition vertical (latitude : R) : direction := mkDir (cos (degrees latitude)) 0 (sin (degrees latitude)).
Definition toward_sun (declination hour_angle : R) : direction :=
  mkDir (cos (degrees declination) * cos (degrees hour_angle)) (cos (degrees declination) * sin (degrees hour_angle)) (sin (degrees declination)).

(** The tilt of the axis on a day of the year, in degrees. *)
Definition tilt (day : Z) : R := 23.45 * sin (2 * PI * (284 + IZR day) / 365.25).

(** The sine of the height of the sun when it is [h] hours before solar noon: the
    sky turns by 15 degrees per hour. *)
Definition sun_height (latitude : R) (day : Z) (h : R) : R := dot (vertical latitude) (toward_sun (tilt day) (15 * h)).

(** The equation of time, in minutes: the sun is late in February and early in
    November.  The angle runs once around in 364 days from day 81. *)
Definition equation_of_time (day : Z) : R :=
  let b := 2 * PI * (IZR day - 81) / 364 in 9.87 * sin (2 * b) - 7.53 * cos b - 1.5 * sin b.

(** Clocks are an hour ahead in summer, if summer time is used. *)
Definition ahead (dst : bool) (day : Z) (a : R) : Prop :=
  (dst = true /\ (87 <= day < 304)%Z -> a = 1) /\ (dst = false \/ (day < 87)%Z \/ (304 <= day)%Z -> a = 0).

(** The solar time, in hours: four minutes later for every degree to the east. *)
Definition solar_time (longitude meridian : R) (day : Z) (clock : R) : R :=
  clock + (4 * (longitude - meridian) + equation_of_time day) / 60.

(** Radiation outside of the atmosphere, larger when the earth is close to the sun;
    what a clear sky lets through at the height [s] of the sun, and the part of it
    that falls on the ground. *)
Definition outside_radiation (day : Z) : R := 1367 * (1 + 0.034 * cos (2 * PI * IZR day / 365.25)).
Definition haze (day : Z) : R := 0.174 + 0.035 * sin (2 * PI * (IZR day - 100) / 365).
Definition on_the_ground (day : Z) (s clearness : R) : R := outside_radiation day * exp (- (haze day * / s)) * clearness * s.
