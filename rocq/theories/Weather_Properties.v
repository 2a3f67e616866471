(** * Properties of the climate simulators. *)

From Coq Require Import List ZArith QArith Bool Arith Lia.
From Verif Require Import Prelude SpecBase SpecBaseFacts Time_Model Time_Proofs Loader_Model Loader_Spec Loader_FileProofs Weather_Model Weather_Spec Weather_Proofs Weather_RealProofs.
Import ListNotations.
Local Open Scope Z_scope.

(** ** C58: the simulated climate runs for as long as asked *)

(** The number of minutes shown, day by day, as long as the month does not change:
    every step succeeds and shows the next reading of the irradiance simulator and
    the next temperature of the day computed from a day of readings. *)
Theorem C58_within_month_partial : forall rad clr temps T c0 start n,
  0 <= start ->
  (forall d, temps d (stretch rad 0 start d) (stretch clr (clearness_at_start clr c0 start) start d) = Ok (T d)) ->
  (forall d, length (T d) = N.to_nat 1440) ->
  same_month start (later start n) ->
  exists s, bind (make_climate rad clr temps c0 start a_minute) (iterate n (climate_step rad clr temps)) = Ok s /\
    now s = later start n /\
    let k := (minutes_into_day start + n)%nat in
    irradiance (user s) = shown rad 0 start k /\
    at_ (T (k / N.to_nat 1440)%nat) (k mod N.to_nat 1440)%nat (temperature (user s)).
Proof.
  intros rad clr temps T c0 start n P H L M.
  assert (P' : 0 <= later start n) by (unfold later, a_minute; lia).
  apply (same_month_iff start (later start n) P P') in M.
  rewrite (climate_run rad clr c0 start P temps T H L n), <- M, Z.eqb_refl.
  eexists. split; [reflexivity|]. rewrite (at_index_now rad clr c0 start temps T H L), (base_start rad clr c0 start temps T H L), (at_index_irradiance rad clr c0 start temps T H L). split; [reflexivity|]. split; [reflexivity|].
  unfold at_index, state_at, climate_at. cbn [user temperature]. unfold at_. apply nth_error_nth'. rewrite L. apply Nat.mod_upper_bound. lia.
Qed.

(** Every run that leaves the month of its start fails. *)
Theorem C58_stops_at_month_end : forall rad clr temps T c0 start n,
  0 <= start ->
  (forall d, temps d (stretch rad 0 start d) (stretch clr (clearness_at_start clr c0 start) start d) = Ok (T d)) ->
  (forall d, length (T d) = N.to_nat 1440) ->
  ~ same_month start (later start n) ->
  bind (make_climate rad clr temps c0 start a_minute) (iterate n (climate_step rad clr temps)) = Err StopIteration.
Proof.
  intros rad clr temps T c0 start n P H L M.
  assert (P' : 0 <= later start n) by (unfold later, a_minute; lia).
  rewrite (same_month_iff start (later start n) P P') in M.
  rewrite (climate_run rad clr c0 start P temps T H L n).
  destruct (Z.eqb_spec (month_index (date_at (later start n))) (month_index (date_at start))); [congruence|reflexivity].
Qed.

Theorem C58_month_end_refuted : exists rad clr temps c0 start n, (forall t, 0 < rad t)%Q /\ (forall d i c, exists ts, temps d i c = Ok ts /\ length ts = length i) /\
  bind (make_climate rad clr temps c0 start a_minute) (iterate n (climate_step rad clr temps)) = Err StopIteration.
Proof.
  set (rad := fun _ : Z => 100%Q). set (clr := fun _ : Z => 1%Q). set (temps := fun (_ : nat) (i _ : list Q) => Ok i : result (list Q)).
  set (start := 30 * us_per_day).
  exists rad, clr, temps, 1%Q, start, (N.to_nat 1440). split; [reflexivity|]. split; [intros d i c; exists i; split; reflexivity|].
  apply (C58_stops_at_month_end rad clr temps (stretch rad 0 start)).
  - vm_compute. discriminate.
  - intro d. reflexivity.
  - intro d. unfold stretch. rewrite map_length, seq_length. reflexivity.
  - replace (later start (N.to_nat 1440)) with (31 * us_per_day) by (unfold later, a_minute, start, us_per_day; lia). intros [_ E]. vm_compute in E. discriminate.
Qed.

(** The run of two days across the end of January of year 1. *)
Example C58_example : let temps := fun (_ : nat) (i _ : list Q) => Ok i in let start := 30 * us_per_day + 2 * a_minute in
  0 <= start /\ (forall d i c, temps d i c = Ok i) /\ same_month start (later start 1437) /\ ~ same_month start (later start 1438) /\ minutes_into_day start = 2%nat.
Proof. cbv zeta. unfold same_month. split; [vm_compute; discriminate|]. split; [reflexivity|]. split; [vm_compute; split; reflexivity|]. split; [vm_compute; intros [_ E]; discriminate|vm_compute; reflexivity]. Qed.

(** ** C95: the irradiance belongs to the current time *)

(** The irradiance simulator shows what was computed one minute before, and nothing
    at its start. *)
Theorem C95_simulator_partial : forall rad clr c0 start n, 0 <= start ->
  exists s, bind (make_irradiance rad clr c0 start a_minute) (iterate n (irradiance_step rad clr)) = Ok s /\
    now s = later start n /\
    ((0 < n)%nat -> s_irradiance (user s) = rad (now s - a_minute) /\ s_clearness (user s) = clr (now s - a_minute)) /\
    (n = 0%nat -> s_irradiance (user s) = 0%Q).
Proof.
  intros rad clr c0 start n P. rewrite make_irradiance_eq by exact P. cbn [bind]. rewrite irradiance_iterate by reflexivity.
  eexists. split; [reflexivity|]. unfold sun_state. cbn [now user s_irradiance s_clearness].
  replace (later start 0) with start by (unfold later; lia). split; [reflexivity|]. split.
  - intro N. destruct n as [|n]; [lia|]. cbn [shown]. replace (later start (S n) - a_minute) with (later start n) by (unfold later; lia). auto.
  - intros ->. reflexivity.
Qed.

(** A simulator that starts in full sun shows none. *)
Theorem C95_start_refuted : exists rad clr c0 start s, (forall t, (0 < rad t)%Q) /\ make_irradiance rad clr c0 start a_minute = Ok s /\ s_irradiance (user s) = 0%Q.
Proof.
  exists (fun _ => 800%Q), (fun _ => 1%Q), 1%Q, (5 * a_minute). eexists. split; [intro; reflexivity|]. split; [apply make_irradiance_eq; vm_compute; discriminate|reflexivity].
Qed.

(** The climate started at midnight shows the irradiance of the minute before. *)
Theorem C95_midnight_partial : forall rad clr temps T c0 start n,
  0 <= start -> (forall d, temps d (stretch rad 0 start d) (stretch clr (clearness_at_start clr c0 start) start d) = Ok (T d)) ->
  (forall d, length (T d) = N.to_nat 1440) -> same_month start (later start n) -> minutes_into_day start = 0%nat -> (0 < n)%nat ->
  exists s, bind (make_climate rad clr temps c0 start a_minute) (iterate n (climate_step rad clr temps)) = Ok s /\
    irradiance (user s) = rad (now s - a_minute).
Proof.
  intros rad clr temps T c0 start n P H L M Z N. destruct (C58_within_month_partial rad clr temps T c0 start n P H L M) as (s & E & W & I & _).
  exists s. split; [exact E|]. rewrite I, Z, W. destruct n as [|n]; [lia|]. cbn [Nat.add shown]. f_equal. unfold later. lia.
Qed.

(** Started later in the day, it is ahead by the time of day of the start, less the
    same minute. *)
Theorem C95_offset : forall rad clr temps T c0 start n,
  0 <= start -> (forall d, temps d (stretch rad 0 start d) (stretch clr (clearness_at_start clr c0 start) start d) = Ok (T d)) ->
  (forall d, length (T d) = N.to_nat 1440) -> same_month start (later start n) -> (0 < minutes_into_day start)%nat ->
  exists s, bind (make_climate rad clr temps c0 start a_minute) (iterate n (climate_step rad clr temps)) = Ok s /\
    irradiance (user s) = rad (now s + Z.of_nat (minutes_into_day start) * a_minute - a_minute).
Proof.
  intros rad clr temps T c0 start n P H L M Z. destruct (C58_within_month_partial rad clr temps T c0 start n P H L M) as (s & E & W & I & _).
  exists s. split; [exact E|]. rewrite I, W. destruct (minutes_into_day start + n)%nat as [|k] eqn:K; [lia|]. cbn [shown]. f_equal. unfold later. lia.
Qed.

Theorem C95_afternoon_refuted : exists rad clr temps c0 start s, make_climate rad clr temps c0 start a_minute = Ok s /\
  now s = start /\ (exists t, time_of_day t <> time_of_day start /\ ~ (rad t == rad (now s))%Q /\ irradiance (user s) = rad t).
Proof.
  set (rad := fun t => inject_Z (t mod us_per_day)). set (clr := fun _ : Z => 1%Q). set (temps := fun (_ : nat) (i _ : list Q) => Ok i : result (list Q)).
  set (start := 720 * a_minute).
  destruct (C95_offset rad clr temps (stretch rad 0 start) 1%Q start 0) as (s & E & I).
  - vm_compute. discriminate.
  - intro d. reflexivity.
  - intro d. unfold stretch. rewrite map_length, seq_length. reflexivity.
  - replace (later start 0) with start by (unfold later; lia). split; reflexivity.
  - replace (minutes_into_day start) with (N.to_nat 720) by (vm_compute; reflexivity). lia.
  - destruct (C58_within_month_partial rad clr temps (stretch rad 0 start) 1%Q start 0) as (s' & E' & W & _).
    + vm_compute. discriminate.
    + intro d. reflexivity.
    + intro d. unfold stretch. rewrite map_length, seq_length. reflexivity.
    + replace (later start 0) with start by (unfold later; lia). split; reflexivity.
    + assert (s' = s) by congruence. subst s'. assert (W' : now s = start) by (rewrite W; unfold later; lia).
      exists rad, clr, temps, 1%Q, start, s. destruct (make_climate rad clr temps 1%Q start a_minute) as [s1|e]; cbn [bind iterate] in E; [|discriminate].
      injection E as ->. split; [reflexivity|]. split; [exact W'|].
      exists (now s + Z.of_nat (minutes_into_day start) * a_minute - a_minute). rewrite W' in *.
      split; [vm_compute; discriminate|]. split; [vm_compute; discriminate|exact I].
Qed.

Example C95_example : minutes_into_day (us_per_day + 90 * a_minute + 5) = 90%nat /\ shown inject_Z 0 100 3 = inject_Z (100 + 2 * a_minute).
Proof. split; vm_compute; reflexivity. Qed.

(** ** C98: the recorded climate shows the last data point *)

Theorem C98_recorded : forall rows first step start lt la n,
  0 < step -> regular rows first step -> nth_error rows (length rows - 1) = Some (lt, la) -> first <= start <= lt ->
  let t := start + Z.of_nat n * step in
  let run := bind (make_real rows start step) (iterate n real_step) in
  (forall r, In r rows -> fst r <= t < fst r + step ->
     exists s, run = Ok s /\ now s = t /\ r_irradiance (user s) = fst (snd r) /\ r_temperature (user s) = snd (snd r)) /\
  ((forall r, In r rows -> fst r + step <= t) -> run = Err StopIteration).
Proof.
  intros rows first step start lt la n Hs R L F t run. destruct (real_run rows first step start lt la n Hs R L F) as (k & K & H). fold run in H. fold t in H.
  split.
  - intros [u v] I B. apply In_nth_error in I as (i & I). pose proof (R _ _ _ I) as U. cbn [fst] in *.
    assert (i = (k + n)%nat) by (unfold t in B; nia). subst i. rewrite I in H. exact H.
  - intro A. destruct (nth_error rows (k + n)) as [[u v]|] eqn:E; [|exact H]. exfalso.
    pose proof (R _ _ _ E) as U. apply nth_error_In in E. apply A in E. cbn [fst] in E. unfold t in E. nia.
Qed.

(** A start outside of the data is refused. *)
Theorem C98_outside : forall rows first step start lt la,
  0 < step -> regular rows first step -> nth_error rows (length rows - 1) = Some (lt, la) -> start < first \/ lt < start ->
  make_real rows start step = Err ValueError.
Proof.
  intros rows first step start lt la Hs R L O. destruct (slice_main _ rows first step start lt la Hs R L) as (H1 & H2).
  pose proof (R _ _ _ L) as LT. unfold make_real. destruct (Z_lt_le_dec lt start) as [A|A].
  - rewrite (H1 ltac:(lia)). reflexivity.
  - destruct (H2 A) as (k & t & a & E & N & _ & K). assert (k = 0%nat) by (apply K; lia). subst k. rewrite E. cbn [bind skipn].
    pose proof (R _ _ _ N) as T. destruct rows as [|[t0 v] rows]; [discriminate|]. injection N as -> ->.
    replace (t >? start) with true by lia. reflexivity.
Qed.

(** With a missing point, the values of later points come too early. *)
Theorem C98_gap_refuted : exists rows start s, bind (make_real rows start 10) (iterate 2 real_step) = Ok s /\
  exists t v, In (t, v) rows /\ now s < t /\ r_irradiance (user s) = fst v /\ forall u w, In (u, w) rows -> u <= now s -> ~ (fst w == fst v)%Q.
Proof.
  exists [(0, (1, 5)%Q); (10, (2, 5)%Q); (30, (4, 5)%Q); (40, (5, 5)%Q)], 0. eexists. split; [vm_compute; reflexivity|].
  exists 30, (4, 5)%Q. split; [cbn; tauto|]. split; [reflexivity|]. split; [reflexivity|].
  intros u w I. cbn in I. destruct I as [I|[I|[I|[I|[]]]]]; injection I as <- <-; cbn; intros H E; vm_compute in E; try discriminate; lia.
Qed.

Example C98_example : let rows := [(0, (1, 5)%Q); (10, (2, 6)%Q); (20, (3, 7)%Q)] in regular rows 0 10 /\
  match bind (make_real rows 13 10) (iterate 1 real_step) with Ok s => now s = 23 /\ r_irradiance (user s) = 3%Q | Err _ => False end /\
  bind (make_real rows 13 10) (iterate 2 real_step) = Err StopIteration.
Proof.
  split; [|vm_compute; repeat split; reflexivity]. intros i t a H. destruct i as [|[|[|i]]]; cbn in H; try (injection H as <- _; reflexivity). destruct i; discriminate.
Qed.

(** ** C99: the interpolated climate *)

(** Between two neighbouring points the value lies on the line through them, at the
    whole minute; the simulation ends with a ValueError at the end of the data.  The
    points are at whole minutes and a step apart. *)
Theorem C99_interpolated : forall rows f g start lt la step n,
  0 < g -> 0 < step -> regular rows (f * a_minute) (g * a_minute) -> nth_error rows (length rows - 1) = Some (lt, la) -> f * a_minute <= start < lt ->
  let t := start + Z.of_nat n * step in
  let run := bind (make_interpolated rows start (g * a_minute) step) (iterate n interpolated_step) in
  (lt < t -> run = Err ValueError) /\
  (t <= lt -> exists s, run = Ok s /\ now s = t /\
     forall i a ya b yb, at_ rows i (a, ya) -> at_ rows (S i) (b, yb) -> a <= t <= b ->
     exists v, interpolated_get s = Ok v /\ (v == ya + (yb - ya) * (inject_Z ((t - a) / a_minute) / inject_Z ((b - a) / a_minute)))%Q).
Proof. exact interp_run. Qed.

(** At the time of a data point it is the recorded value. *)
Theorem C99_at_points : forall rows f g start lt la step n i a y,
  0 < g -> 0 < step -> regular rows (f * a_minute) (g * a_minute) -> nth_error rows (length rows - 1) = Some (lt, la) -> f * a_minute <= start < lt ->
  at_ rows i (a, y) -> a = start + Z.of_nat n * step ->
  exists s v, bind (make_interpolated rows start (g * a_minute) step) (iterate n interpolated_step) = Ok s /\ now s = a /\ interpolated_get s = Ok v /\ (v == y)%Q.
Proof.
  intros rows f g start lt la step n i a y G S R L F I A.
  pose proof (R _ _ _ I) as TI. pose proof (R _ _ _ L) as TL. pose proof (at_lt _ _ _ _ I) as IL.
  assert (AL : a <= lt) by (unfold a_minute in *; nia).
  destruct (interp_run rows f g start lt la step n G S R L F) as (_ & H). destruct (H ltac:(lia)) as (s & E & N & V).
  exists s. destruct (Nat.eq_dec (Datatypes.S i) (length rows)) as [Z|Z].
  - (* the last point *)
    destruct i as [|i]; [exfalso; replace (length rows - 1)%nat with 0%nat in TL by lia; unfold a_minute in *; lia|].
    destruct (lt_at _ rows i ltac:(lia)) as ([b yb] & B). pose proof (R _ _ _ B) as TB.
    destruct (V i b yb a y B I ltac:(rewrite <- A, TI, TB; unfold a_minute; nia)) as (v & V1 & V2).
    exists v. split; [exact E|]. split; [congruence|]. split; [exact V1|]. rewrite V2, <- A.
    assert (D : ~ (inject_Z ((a - b) / a_minute) == 0)%Q).
    { replace (a - b) with (g * a_minute) by (rewrite TI, TB; unfold a_minute; nia). rewrite Z.div_mul by (unfold a_minute; lia). intro Q. unfold Qeq in Q. cbn in Q. lia. }
    field. exact D.
  - destruct (lt_at _ rows (Datatypes.S i) ltac:(lia)) as ([b yb] & B). pose proof (R _ _ _ B) as TB.
    destruct (V i a y b yb I B ltac:(rewrite <- A, TI, TB; unfold a_minute; nia)) as (v & V1 & V2).
    exists v. split; [exact E|]. split; [congruence|]. split; [exact V1|]. rewrite V2, <- A, Z.sub_diag. change (inject_Z (0 / a_minute)) with 0%Q.
    assert (D : ~ (inject_Z ((b - a) / a_minute) == 0)%Q).
    { replace (b - a) with (g * a_minute) by (rewrite TI, TB; unfold a_minute; nia). rewrite Z.div_mul by (unfold a_minute; lia). intro Q. unfold Qeq in Q. cbn in Q. lia. }
    field. exact D.
Qed.

Example C99_example : let rows := [(0, 10%Q); (60 * a_minute, 20%Q); (120 * a_minute, 14%Q)] in
  let run n := bind (make_interpolated rows (15 * a_minute) (60 * a_minute) (30 * a_minute)) (iterate n interpolated_step) in
  match bind (run 2%nat) interpolated_get with Ok v => (v == 37 # 2)%Q | Err _ => False end /\ run 4%nat = Err ValueError.
Proof. cbv zeta. split; vm_compute; reflexivity. Qed.

Print Assumptions C58_within_month_partial.
Print Assumptions C58_stops_at_month_end.
Print Assumptions C58_month_end_refuted.
Print Assumptions C95_simulator_partial.
Print Assumptions C95_start_refuted.
Print Assumptions C95_midnight_partial.
Print Assumptions C95_offset.
Print Assumptions C95_afternoon_refuted.
Print Assumptions C98_recorded.
Print Assumptions C98_outside.
Print Assumptions C98_gap_refuted.
Print Assumptions C99_interpolated.
Print Assumptions C99_at_points.
