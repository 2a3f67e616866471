(** * Properties of the irradiance formulas. *)

From Coq Require Import Reals ZArith Bool Lra.
From Verif Require Import Prelude Sun_Model Sun_Spec Sun_Proofs.
Local Open Scope R_scope.

(** ** C96: the irradiance follows the sun *)

(** The formula never leaves the domain of the arc sine; the irradiance is never
    negative, at most the radiation outside of the atmosphere, reduced by the
    clearness and by the height of the sun, and vanishes exactly when the sun is not
    above the horizon or the clearness is zero. *)
Theorem C96_bounds : forall latitude longitude meridian dst day hour minute clearness a, 0 <= clearness -> ahead dst day a ->
  exists v, stored_irradiance latitude longitude meridian dst day hour minute clearness = Ok v /\
  let h := 12 - solar_time longitude meridian day (IZR hour + IZR minute / 60 - a) in
  0 <= v /\ (0 <= sun_height latitude day h -> v <= 1367 * 1.034 * clearness * sun_height latitude day h) /\
  (v = 0 <-> sun_height latitude day h <= 0 \/ clearness = 0) /\
  (0 < sun_height latitude day h -> v = on_the_ground day (sun_height latitude day h) clearness).
Proof.
  intros latitude longitude meridian dst day hour minute k a K Ha. unfold stored_irradiance. rewrite formula, (clock_ok longitude meridian dst day hour minute a Ha). eexists. split; [reflexivity|]. cbv zeta.
  pose proof (extraterrestrial_range day) as (G1 & G2). pose proof (depth_pos day) as D.
  set (s := sun_height _ _ _). destruct (closed_bounds s (extraterrestrial day) (optical_depth day) k G1 ltac:(lra) K) as (A & B).
  split; [exact A|]. split; [|split; [apply closed_zero; lra|apply closed_ground]]. intro S. specialize (B S).
  assert (0 <= k * s) by (apply Rmult_le_pos; assumption). nra.
Qed.

(** On a given day and with the same clearness, more sun above the horizon means more
    irradiance. *)
Theorem C96_higher : forall latitude day correction t t' clearness v v', 0 <= clearness ->
  irradiance_at latitude day correction t clearness = Ok v -> irradiance_at latitude day correction t' clearness = Ok v' ->
  sun_height latitude day (12 - (t + correction / 60)) <= sun_height latitude day (12 - (t' + correction / 60)) -> v <= v'.
Proof.
  intros latitude day correction t t' k v v' K E E' H. rewrite formula in E, E'. injection E as <-. injection E' as <-.
  pose proof (extraterrestrial_range day). pose proof (depth_pos day). apply closed_monotone; lra.
Qed.

(** The irradiance is largest at solar noon, and the same as long before as after. *)
Theorem C96_noon : forall latitude day correction t clearness v noon, -90 <= latitude <= 90 -> 0 <= clearness ->
  irradiance_at latitude day correction t clearness = Ok v ->
  irradiance_at latitude day correction (12 - correction / 60) clearness = Ok noon -> v <= noon.
Proof.
  intros latitude day correction t k v noon L K E E'. refine (C96_higher _ _ _ _ _ _ _ _ K E E' _).
  replace (12 - (12 - correction / 60 + correction / 60)) with 0 by ring. apply highest_at_noon. exact L.
Qed.

Theorem C96_symmetric : forall latitude day correction x clearness,
  irradiance_at latitude day correction (12 - correction / 60 - x) clearness = irradiance_at latitude day correction (12 - correction / 60 + x) clearness.
Proof.
  intros latitude day correction x k. rewrite !formula.
  replace (12 - (12 - correction / 60 - x + correction / 60)) with x by ring.
  replace (12 - (12 - correction / 60 + x + correction / 60)) with (- x) by ring. rewrite symmetric. reflexivity.
Qed.

(** In summer the clock is an hour ahead of the sun. *)
Theorem C96_summer : forall latitude longitude meridian day hour minute clearness, (87 <= day < 304)%Z ->
  stored_irradiance latitude longitude meridian true day (hour + 1) minute clearness =
  stored_irradiance latitude longitude meridian false day hour minute clearness.
Proof.
  intros latitude longitude meridian day hour minute k (A & B). unfold stored_irradiance, local_time, is_summer_time.
  apply Z.leb_le in A. apply Z.ltb_lt in B. rewrite A, B. cbn [andb]. replace (hour + 1 - 1)%Z with hour by ring. reflexivity.
Qed.

(** On the equator at noon of a day the sun shines. *)
Example C96_example : forall day k, 0 < k -> exists v, irradiance_at 0 day 0 12 k = Ok v /\ 0 < v.
Proof.
  intros day k K. rewrite formula. eexists. split; [reflexivity|]. unfold closed.
  replace (12 - (12 + 0 / 60)) with 0 by field.
  assert (S : 0 < sun_height 0 day 0).
  { unfold sun_height, dot, vertical, toward_sun, degrees. cbn [d_x d_y d_z].
    replace (0 * PI / 180) with 0 by field. replace (15 * 0 * PI / 180) with 0 by field. rewrite cos_0, sin_0.
    pose proof (tilt_range day). pose proof PI_RGT_0. assert (0 < cos (tilt day * PI / 180)) by (apply cos_gt_0; nra). lra. }
  destruct (Rlt_dec 0 (sun_height 0 day 0)) as [Y|N]; [|lra].
  destruct (extraterrestrial_range day) as (G & _). pose proof (exp_pos (- optical_depth day / sun_height 0 day 0)) as X.
  apply Rmult_lt_0_compat; [apply Rmult_lt_0_compat; [apply Rmult_lt_0_compat|]|]; assumption.
Qed.

Print Assumptions C96_bounds.
Print Assumptions C96_higher.
Print Assumptions C96_noon.
Print Assumptions C96_symmetric.
Print Assumptions C96_summer.
