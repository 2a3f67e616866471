(** * Proofs about the irradiance formulas. *)

From Coq Require Import Reals ZArith Bool Lra Psatz.
From Verif Require Import Prelude Sun_Model Sun_Spec.
Local Open Scope R_scope.

Lemma unit_vertical : forall l, dot (vertical l) (vertical l) = 1.
Proof. intro l. unfold dot, vertical. cbn. pose proof (sin2_cos2 (degrees l)) as H. unfold Rsqr in H. lra. Qed.

Lemma unit_sun : forall d h, dot (toward_sun d h) (toward_sun d h) = 1.
Proof.
  intros d h. unfold dot, toward_sun. cbn. pose proof (sin2_cos2 (degrees d)) as H. pose proof (sin2_cos2 (degrees h)) as G. unfold Rsqr in *.
  replace (_ + _ + _) with (cos (degrees d) * cos (degrees d) * (sin (degrees h) * sin (degrees h) + cos (degrees h) * cos (degrees h)) + sin (degrees d) * sin (degrees d)) by ring.
  rewrite G. lra.
Qed.

Lemma cauchy : forall u v, dot u u = 1 -> dot v v = 1 -> -1 <= dot u v <= 1.
Proof.
  intros [a b c] [x y z]. unfold dot. cbn. intros H G.
  pose proof (Rle_0_sqr (a - x)). pose proof (Rle_0_sqr (b - y)). pose proof (Rle_0_sqr (c - z)).
  pose proof (Rle_0_sqr (a + x)). pose proof (Rle_0_sqr (b + y)). pose proof (Rle_0_sqr (c + z)). unfold Rsqr in *. lra.
Qed.

Lemma height_range : forall l d h, -1 <= sun_height l d h <= 1.
Proof. intros. apply cauchy; [apply unit_vertical|apply unit_sun]. Qed.

Lemma asin_sign : forall x, -1 <= x <= 1 -> (0 < asin x <-> 0 < x).
Proof.
  intros x H. pose proof (asin_bound x) as B. pose proof (sin_asin x H) as S. pose proof PI_RGT_0. split; intro P.
  - rewrite <- S. apply sin_gt_0; lra.
  - destruct (Rlt_le_dec 0 (asin x)) as [L|L]; [exact L|]. exfalso.
    assert (0 <= sin (- asin x)) by (apply sin_ge_0; lra). rewrite sin_neg, S in H1. lra.
Qed.

(** What the formula amounts to. *)
Definition closed (s g t k : R) : R := if Rlt_dec 0 s then g * exp (- t / s) * k * s else 0.

Lemma formula : forall latitude day correction local k,
  let s := sun_height latitude day (12 - (local + correction / 60)) in
  irradiance_at latitude day correction local k = Ok (closed s (extraterrestrial day) (optical_depth day) k).
Proof.
  intros latitude day correction local k s. unfold irradiance_at.
  assert (E : cos (latitude * PI / 180) * cos (declination day * PI / 180) * cos (15 * (12 - (local + correction / 60)) * PI / 180) + sin (latitude * PI / 180) * sin (declination day * PI / 180) = s).
  { unfold s, sun_height, dot, vertical, toward_sun, degrees. cbn [d_x d_y d_z]. change (tilt day) with (declination day). ring. }
  rewrite E. pose proof (height_range latitude day (12 - (local + correction / 60))) as B. fold s in B.
  unfold math_asin. destruct (Rle_dec (-1) s); [|lra]. destruct (Rle_dec s 1); [|lra]. cbn [bind].
  pose proof PI_RGT_0 as P.
  assert (A : 180 / PI * asin s * PI / 180 = asin s) by (field; lra). rewrite A, sin_asin by lra.
  pose proof (asin_sign s B) as G. unfold closed.
  assert (D : 0 < 180 / PI) by (apply Rdiv_lt_0_compat; lra).
  destruct (Rlt_dec 0 (180 / PI * asin s)) as [Y|N]; destruct (Rlt_dec 0 s) as [Y'|N'].
  - unfold Rminus. rewrite Rplus_0_l. f_equal.
  - exfalso. apply N', G. apply (Rmult_lt_reg_l (180 / PI)); lra.
  - exfalso. apply N. apply Rmult_lt_0_compat; [exact D|]. apply G. exact Y'.
  - f_equal. ring.
Qed.

Lemma extraterrestrial_range : forall day, 0 < extraterrestrial day <= 1367 * 1.034.
Proof. intro day. unfold extraterrestrial. pose proof (COS_bound (2 * PI * IZR day / 365.25)). lra. Qed.

Lemma depth_pos : forall day, 0.139 <= optical_depth day <= 0.209.
Proof. intro day. unfold optical_depth. pose proof (SIN_bound (2 * PI * (IZR day - 100) / 365)). lra. Qed.

Lemma exp_neg : forall x, x <= 0 -> 0 < exp x <= 1.
Proof.
  intros x H. split; [apply exp_pos|]. destruct (Req_dec x 0) as [->|N]; [rewrite exp_0; lra|]. rewrite <- exp_0. left. apply exp_increasing. lra.
Qed.

Lemma exp_le : forall x y, x <= y -> exp x <= exp y.
Proof. intros x y [H| ->]; [left; apply exp_increasing; exact H|right; reflexivity]. Qed.

Lemma ratio_nonpos : forall t s, 0 < t -> 0 < s -> - t / s <= 0.
Proof. intros t s T S. unfold Rdiv. pose proof (Rinv_0_lt_compat s S). nra. Qed.

Lemma closed_bounds : forall s g t k, 0 < g -> 0 < t -> 0 <= k -> 0 <= closed s g t k /\ (0 <= s -> closed s g t k <= g * k * s).
Proof.
  intros s g t k G T K. unfold closed. destruct (Rlt_dec 0 s) as [Y|N].
  - pose proof (exp_neg (- t / s) (ratio_nonpos t s T Y)) as (E1 & E2).
    assert (0 <= g * k * s) by (apply Rmult_le_pos; [apply Rmult_le_pos|]; lra). split; [|intros _]; nra.
  - split; [lra|]. intro. replace s with 0 by lra. lra.
Qed.

Lemma closed_zero : forall s g t k, 0 < g -> 0 < t -> 0 <= k -> (closed s g t k = 0 <-> s <= 0 \/ k = 0).
Proof.
  intros s g t k G T K. unfold closed. destruct (Rlt_dec 0 s) as [Y|N].
  - pose proof (exp_pos (- t / s)). split.
    + intro H'. right. destruct (Req_dec k 0) as [|NK]; [assumption|]. exfalso.
      assert (0 < g * exp (- t / s) * k * s) by (repeat apply Rmult_lt_0_compat; lra). lra.
    + intros [H'| ->]; [lra|]. ring.
  - split; [intros _; left; lra|reflexivity].
Qed.

Lemma closed_monotone : forall s s' g t k, 0 < g -> 0 < t -> 0 <= k -> s <= s' -> closed s g t k <= closed s' g t k.
Proof.
  intros s s' g t k G T K L. destruct (closed_bounds s' g t k G T K) as (P & _). unfold closed in *.
  destruct (Rlt_dec 0 s) as [Y|N]; [|lra]. destruct (Rlt_dec 0 s') as [Y'|N']; [|lra].
  assert (E : exp (- t / s) <= exp (- t / s')).
  { apply exp_le. unfold Rdiv. pose proof (Rinv_le_contravar s s' Y L). nra. }
  pose proof (exp_pos (- t / s)).
  assert (exp (- t / s) * s <= exp (- t / s') * s') by (apply Rmult_le_compat; lra).
  assert (0 <= g * k) by (apply Rmult_le_pos; lra). nra.
Qed.

Lemma tilt_range : forall day, -23.45 <= tilt day <= 23.45.
Proof. intro day. unfold tilt. pose proof (SIN_bound (2 * PI * (284 + IZR day) / 365.25)). lra. Qed.

Lemma cos_degrees : forall a, -90 <= a <= 90 -> 0 <= cos (degrees a).
Proof. intros a H. unfold degrees. pose proof PI_RGT_0. apply cos_ge_0; nra. Qed.

Lemma highest_at_noon : forall latitude day h, -90 <= latitude <= 90 -> sun_height latitude day h <= sun_height latitude day 0.
Proof.
  intros latitude day h H. unfold sun_height, dot, vertical, toward_sun. cbn [d_x d_y d_z].
  pose proof (cos_degrees latitude H) as A. pose proof (tilt_range day). pose proof (cos_degrees (tilt day) ltac:(lra)) as B.
  assert (Z : cos (degrees (15 * 0)) = 1) by (unfold degrees; replace (15 * 0 * PI / 180) with 0 by field; apply cos_0). rewrite Z.
  pose proof (COS_bound (degrees (15 * h))) as (_ & C). assert (0 <= cos (degrees latitude) * cos (degrees (tilt day))) by (apply Rmult_le_pos; assumption). nra.
Qed.

(** The sun moves symmetrically around noon. *)
Lemma symmetric : forall latitude day h, sun_height latitude day (- h) = sun_height latitude day h.
Proof.
  intros. unfold sun_height, dot, vertical, toward_sun. cbn [d_x d_y d_z].
  replace (degrees (15 * - h)) with (- degrees (15 * h)) by (unfold degrees; field). rewrite cos_neg. ring.
Qed.

Lemma clock_ok : forall longitude meridian dst day hour minute a, ahead dst day a ->
  local_time dst day hour minute + time_correction longitude meridian day / 60 = solar_time longitude meridian day (IZR hour + IZR minute / 60 - a).
Proof.
  intros longitude meridian dst day hour minute a (H1 & H0). unfold solar_time, local_time, time_correction, equation_of_time. cbv zeta.
  replace (2 * (360 * (IZR day - 81) / 364) * PI / 180) with (2 * (2 * PI * (IZR day - 81) / 364)) by field.
  replace (360 * (IZR day - 81) / 364 * PI / 180) with (2 * PI * (IZR day - 81) / 364) by field.
  assert (E : IZR (if dst && is_summer_time day then (hour - 1)%Z else hour) = IZR hour - a).
  { unfold is_summer_time. destruct dst; cbn [andb].
    - destruct (Z.leb_spec 87 day); cbn [andb]; [destruct (Z.ltb_spec day 304)|].
      + rewrite H1 by (split; [reflexivity|lia]). rewrite minus_IZR. reflexivity.
      + rewrite H0 by (right; right; lia). ring.
      + rewrite H0 by (right; left; lia). ring.
    - rewrite H0 by (left; reflexivity). ring. }
  rewrite E. field.
Qed.

Lemma closed_ground : forall day s k, 0 < s -> closed s (extraterrestrial day) (optical_depth day) k = on_the_ground day s k.
Proof.
  intros day s k S. unfold closed, on_the_ground. destruct (Rlt_dec 0 s); [|contradiction].
  fold (outside_radiation day). unfold extraterrestrial, optical_depth, outside_radiation, haze.
  replace (- (0.174 + 0.035 * sin (2 * PI * (IZR day - 100) / 365)) / s) with (- ((0.174 + 0.035 * sin (2 * PI * (IZR day - 100) / 365)) * / s)) by (field; lra). reflexivity.
Qed.
