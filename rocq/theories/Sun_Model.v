(** * Model of the irradiance formulas
    (demod/simulators/weather_simulators.py 167-274), over the real numbers.

    Floating point rounding is not represented. *)

From Coq Require Import Reals ZArith Bool.
From Verif Require Import Prelude.
Local Open Scope R_scope.

(** [math.asin] raises a ValueError outside of [-1, 1]. *)
Definition math_asin (x : R) : result R :=
  if Rle_dec (-1) x then if Rle_dec x 1 then Ok (asin x) else Err ValueError else Err ValueError.

(** [is_summer_time] (lines 167-171). *)
Definition is_summer_time (day : Z) : bool := (87 <=? day)%Z && (day <? 304)%Z.

(** [_calculate_global_irradiance] (lines 173-190): the time correction, in minutes. *)
Definition time_correction (longitude meridian : R) (day : Z) : R :=
  let b := 360 * (IZR day - 81) / 364 in
  let equation := 9.87 * sin (2 * b * PI / 180) - 7.53 * cos (b * PI / 180) - 1.5 * sin (b * PI / 180) in
  4 * (longitude - meridian) + equation.

(** Lines 223-230. *)
Definition extraterrestrial (day : Z) : R := 1367 * (1 + 0.034 * cos (2 * PI * IZR day / 365.25)).
Definition optical_depth (day : Z) : R := 0.174 + 0.035 * sin (2 * PI * (IZR day - 100) / 365).
(** Lines 236-238. *)
Definition declination (day : Z) : R := 23.45 * sin (2 * PI * (284 + IZR day) / 365.25).

(** The part of [step] before the clock moves (lines 208-274); [local] is the
    number of hours of lines 217-218 without the correction, the clearness is the drawn
    one. *)
Definition irradiance_at (latitude : R) (day : Z) (correction local clearness : R) : result R :=
  let hours_before_noon := 12 - (local + correction / 60) in
  let hour_angle := 15 * hours_before_noon in
  bind (math_asin (cos (latitude * PI / 180) * cos (declination day * PI / 180) * cos (hour_angle * PI / 180)
                   + sin (latitude * PI / 180) * sin (declination day * PI / 180))) (fun a =>
  let altitude := 180 / PI * a in
  let clearsky := if Rlt_dec 0 altitude then extraterrestrial day * exp ((0 - optical_depth day) / sin (altitude * PI / 180)) else 0 in
  Ok (clearsky * clearness * sin (altitude * PI / 180))).

(** Lines 208-218: the local time of the formula. *)
Definition local_time (use_summer_time : bool) (day hour minute : Z) : R :=
  let local_hour := if use_summer_time && is_summer_time day then (hour - 1)%Z else hour in
  IZR local_hour + IZR minute / 60.

(** The irradiance stored by [step]. *)
Definition stored_irradiance (latitude longitude meridian : R) (use_summer_time : bool) (day hour minute : Z) (clearness : R) : result R :=
  irradiance_at latitude day (time_correction longitude meridian day) (local_time use_summer_time day hour minute) clearness.
