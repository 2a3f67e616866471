(** * C14-C19: time-aware simulators and callbacks. *)

From Coq Require Import List ZArith Bool Lia.
From Verif Require Import Prelude SpecBase Time_Model Time_Spec Time_Proofs.
Import ListNotations.
Local Open Scope Z_scope.

(** ** C14 *)

Theorem C14_lands_on_start : forall U step i (s s' : tsim U), advances U step -> 0 < step_size s ->
  (forall t, i = AtTime t -> 0 <= t < us_per_day) ->
  t_initialize i step s = Ok s' ->
  now s' = now s /\ step_size s' = step_size s /\
  exists d, resolves i (now s) d /\ d <= now s /\ whole_steps (step_size s) d (now s) (ticks s').
Proof. exact t_initialize_spec. Qed.
Print Assumptions C14_lands_on_start.

Theorem C14_succeeds : forall U step i (s : tsim U), 0 < step_size s ->
  (forall x, exists y, step x = Ok y) -> (forall t, i = AtTime t -> 0 <= t < us_per_day) ->
  match i with AtDatetime d => d <= now s | AtOther => False | _ => True end ->
  exists s', t_initialize i step s = Ok s'.
Proof. exact t_initialize_succeeds. Qed.
Print Assumptions C14_succeeds.

Theorem C14_rejected : forall U step i (s : tsim U),
  (forall d, i = AtDatetime d -> now s < d -> t_initialize i step s = Err ValueError) /\
  (i = AtOther -> t_initialize i step s = Err NotImplementedError).
Proof. exact t_initialize_errors. Qed.
Print Assumptions C14_rejected.

(** Every decorated time-aware step advances the clock as required. *)
Theorem C14_decorated_steps_advance : forall U k r on body, advances U (decorated k r on (tstep body)).
Proof. exact decorated_advances. Qed.
Print Assumptions C14_decorated_steps_advance.

(** 0003-01-01T06:35, ten-minute steps, initialized at 04:00: fifteen steps; at
    08:00: the previous day. *)
Definition jan1 : Z := 730 * us_per_day.
Definition minutes (n : Z) : Z := n * 60000000.

Example C14_example : exists s1 s2,
  date_at jan1 = mkDate 3 1 1 /\ weekday_at jan1 = 2 /\
  t_initialize (AtTime (minutes 240)) (tstep idle) (mkT (jan1 + minutes 395) (minutes 10) 0 7) = Ok s1 /\
  ticks s1 = 15 /\ now s1 = jan1 + minutes 395 /\
  t_initialize (AtTime (minutes 480)) (tstep idle) (mkT (jan1 + minutes 395) (minutes 10) 0 7) = Ok s2 /\
  ticks s2 = 135 /\ now s2 = jan1 + minutes 395.
Proof. do 2 eexists. conj_vm. Qed.

(** ** C15 *)

Theorem C15_clock : forall U step n (s s' : tsim U), advances U step -> iterate n step s = Ok s' ->
  now s' = now s + Z.of_nat n * step_size s /\ step_size s' = step_size s /\ ticks s' = ticks s + Z.of_nat n.
Proof. intros U step n s s'. apply iterate_advances. Qed.
Print Assumptions C15_clock.

Theorem C15_two_clocks : forall U V step1 step2 m n (s s' : tsim U) (z z' : tsim V),
  advances U step1 -> advances V step2 -> now s = now z ->
  iterate m step1 s = Ok s' -> iterate n step2 z = Ok z' ->
  (now s' = now z' <-> Z.of_nat m * step_size s = Z.of_nat n * step_size z).
Proof.
  intros U V step1 step2 m n s s' z z' H1 H2 H0 E1 E2.
  apply iterate_advances in E1 as (-> & _); auto. apply iterate_advances in E2 as (-> & _); auto. lia.
Qed.
Print Assumptions C15_two_clocks.

Example C15_example : exists s z,
  iterate 10 (tstep idle) (mkT jan1 (minutes 1) 0 0) = Ok s /\
  iterate 1 (tstep idle) (mkT jan1 (minutes 10) 0 0) = Ok z /\ now s = now z.
Proof. do 2 eexists. conj_vm. Qed.

(** ** C16 *)

(** The dates of the model are those of the proleptic Gregorian calendar. *)
Theorem C16_calendar : forall n, 0 <= n ->
  exists leap, (leap = true <-> leap_year (year (date_of n))) /\ ordinal leap (date_of n) = n + 1.
Proof. intros n Hn. eexists. split; [apply is_leap_iff|]. apply ordinal_date_of; auto. Qed.
Print Assumptions C16_calendar.

Theorem C16_after_next_day : forall U on body s s' r, 0 <= now s -> 0 < step_size s <= us_per_day ->
  (decorated AfterNextDay r on (tstep body) s = Ok s' <->
   advanced U s s' /\
   ((date_at (now s') <> date_at (now s) /\ called_after U on body s s') \/
    (date_at (now s') = date_at (now s) /\ not_called U body s s'))).
Proof. exact after_next_day_step. Qed.
Print Assumptions C16_after_next_day.

(** As many calls as midnights passed, over any number of steps. *)
Theorem C16_one_call_per_midnight : forall n s r, 0 <= now s -> 0 < step_size s <= us_per_day ->
  exists s', iterate n (decorated AfterNextDay r count_on (tstep idle)) s = Ok s' /\
    now s' = now s + Z.of_nat n * step_size s /\
    user s' - user s = crossings 0 (now s) (now s').
Proof. exact after_next_day_count. Qed.
Print Assumptions C16_one_call_per_midnight.

Example C16_example : exists s',
  iterate 60 (decorated AfterNextDay 0 count_on (tstep idle)) (mkT (jan1 + minutes 30) (minutes 1440) 0 0) = Ok s' /\
  user s' = 60 /\ date_at (now s') = mkDate 3 3 2.
Proof. eexists. conj_vm. Qed.

(** A step longer than a day can land on the same day of another month. *)
Theorem C16_long_steps_refuted : exists (s s' : tsim Z),
  0 <= now s /\ decorated AfterNextDay 0 count_on (tstep idle) s = Ok s' /\
  date_at (now s') <> date_at (now s) /\ not_called Z idle s s'.
Proof.
  exists (mkT jan1 (31 * us_per_day) 0 0). eexists. split; [vm_compute; discriminate|].
  split; [vm_compute; reflexivity|]. split; [vm_compute; discriminate|reflexivity].
Qed.
Print Assumptions C16_long_steps_refuted.

(** ** C17 *)

(** The property fails: entering a new month does not call back. *)
Theorem C17_month_end_refuted : exists (s s' : tsim Z),
  0 <= now s /\ 0 < step_size s <= us_per_day /\
  decorated BeforeNextDay 0 count_on (tstep idle) s = Ok s' /\
  date_at (now s) = mkDate 3 1 31 /\ date_at (now s') = mkDate 3 2 1 /\
  not_called Z idle s s' /\ ~ called_before Z count_on idle s s'.
Proof.
  exists (mkT (jan1 + 30 * us_per_day + minutes 1435) (minutes 10) 0 0). eexists.
  split; [vm_compute; discriminate|]. split; [vm_compute; split; [reflexivity|discriminate]|].
  split; [vm_compute; reflexivity|]. split; [vm_compute; reflexivity|]. split; [vm_compute; reflexivity|].
  split; [reflexivity|]. intros (u & H1 & H2). vm_compute in H1. injection H1 as <-. discriminate.
Qed.
Print Assumptions C17_month_end_refuted.

(** Exactly what happens: called iff the date changes and the new day is not the
    first of a month. *)
Theorem C17_before_next_day_exact : forall U on body s s' r, 0 <= now s -> 0 < step_size s <= us_per_day ->
  (decorated BeforeNextDay r on (tstep body) s = Ok s' <->
   advanced U s s' /\
   ((date_at (now s') <> date_at (now s) /\ day (date_at (now s')) <> 1 /\ called_before U on body s s') \/
    ((date_at (now s') = date_at (now s) \/ day (date_at (now s')) = 1) /\ not_called U body s s'))).
Proof. exact before_next_day_step. Qed.
Print Assumptions C17_before_next_day_exact.

(** The claimed behaviour, for steps that do not land on the first day of a month. *)
Theorem C17_before_next_day_partial : forall U on body s s' r, 0 <= now s -> 0 < step_size s <= us_per_day ->
  day (date_at (now s + step_size s)) <> 1 ->
  (decorated BeforeNextDay r on (tstep body) s = Ok s' <->
   advanced U s s' /\
   ((date_at (now s') <> date_at (now s) /\ called_before U on body s s') \/
    (date_at (now s') = date_at (now s) /\ not_called U body s s'))).
Proof.
  intros U on body s s' r Hn Hs Hd. rewrite before_next_day_step by auto.
  split; intros [Ha H]; split; auto; destruct Ha as (Ea & _); rewrite Ea in *; tauto.
Qed.
Print Assumptions C17_before_next_day_partial.

Example C17_example : exists s',
  decorated BeforeNextDay 0 count_on (tstep idle) (mkT (jan1 + minutes 1435) (minutes 10) 0 0) = Ok s' /\
  user s' = 1 /\ date_at (now s') = mkDate 3 1 2.
Proof. eexists. conj_vm. Qed.

(** ** C18 *)

Theorem C18_after_4am : forall U on body s s' r, 0 < step_size s <= us_per_hour ->
  (decorated After4am r on (tstep body) s = Ok s' <->
   advanced U s s' /\
   ((crosses (4 * us_per_hour) (now s) (now s') /\ called_after U on body s s') \/
    (~ crosses (4 * us_per_hour) (now s) (now s') /\ not_called U body s s'))).
Proof. exact after_4am_step. Qed.
Print Assumptions C18_after_4am.

Theorem C18_before_4am : forall U on body s s' r, 0 < step_size s <= us_per_hour ->
  (decorated Before4am r on (tstep body) s = Ok s' <->
   advanced U s s' /\
   ((crosses (4 * us_per_hour) (now s) (now s') /\ called_before U on body s s') \/
    (~ crosses (4 * us_per_hour) (now s) (now s') /\ not_called U body s s'))).
Proof. exact before_4am_step. Qed.
Print Assumptions C18_before_4am.

Theorem C18_one_call_per_day : forall k n s r, k = Before4am \/ k = After4am -> 0 < step_size s <= us_per_hour ->
  exists s', iterate n (decorated k r count_on (tstep idle)) s = Ok s' /\
    now s' = now s + Z.of_nat n * step_size s /\
    user s' - user s = crossings (4 * us_per_hour) (now s) (now s').
Proof. exact four_am_count. Qed.
Print Assumptions C18_one_call_per_day.

(** With longer steps 4 am can be jumped over. *)
Theorem C18_long_steps_refuted : exists (s s' : tsim Z),
  step_size s = 2 * us_per_hour /\ crosses (4 * us_per_hour) (now s) (now s') /\
  decorated After4am 0 count_on (tstep idle) s = Ok s' /\ not_called Z idle s s'.
Proof.
  exists (mkT (jan1 + minutes 210) (2 * us_per_hour) 0 0). eexists. split; [reflexivity|].
  split; [|split; [vm_compute; reflexivity|reflexivity]].
  exists (jan1 + minutes 240). split; [vm_compute; reflexivity|]. vm_compute. split; [reflexivity|discriminate].
Qed.
Print Assumptions C18_long_steps_refuted.

Example C18_example : exists s',
  iterate 100 (decorated Before4am 0 count_on (tstep idle)) (mkT jan1 (minutes 60) 0 0) = Ok s' /\
  user s' = 5 /\ crossings (4 * us_per_hour) jan1 (now s') = 5.
Proof. eexists. conj_vm. Qed.

(** ** C19 *)

Theorem C19_after_refresh : forall U on body s s' r,
  (decorated AfterRefresh r on (tstep body) s = Ok s' <->
   advanced U s s' /\
   ((now s mod us_per_day = r /\ called_after U on body s s') \/
    (now s mod us_per_day <> r /\ not_called U body s s'))).
Proof. exact after_refresh_step. Qed.
Print Assumptions C19_after_refresh.

Theorem C19_before_refresh : forall U on body s s' r,
  (decorated BeforeRefresh r on (tstep body) s = Ok s' <->
   advanced U s s' /\
   ((now s mod us_per_day = r /\ called_before U on body s s') \/
    (now s mod us_per_day <> r /\ not_called U body s s'))).
Proof. exact before_refresh_step. Qed.
Print Assumptions C19_before_refresh.

(** Aligned grids: as many calls as refresh times among the instants at which the
    steps start. *)
Theorem C19_one_call_per_day : forall k kb n s r, kb = BeforeRefresh \/ kb = AfterRefresh ->
  0 < step_size s -> us_per_day = k * step_size s -> 0 <= r < us_per_day ->
  (now s - r) mod step_size s = 0 ->
  exists s', iterate n (decorated kb r count_on (tstep idle)) s = Ok s' /\
    now s' = now s + Z.of_nat n * step_size s /\
    user s' - user s = crossings r (now s - 1) (now s' - 1).
Proof. exact refresh_count. Qed.
Print Assumptions C19_one_call_per_day.

(** In particular one call in every 24 hours. *)
Theorem C19_every_24h : forall (k : nat) kb s r, kb = BeforeRefresh \/ kb = AfterRefresh ->
  0 < step_size s -> us_per_day = Z.of_nat k * step_size s -> 0 <= r < us_per_day ->
  (now s - r) mod step_size s = 0 ->
  exists s', iterate k (decorated kb r count_on (tstep idle)) s = Ok s' /\ user s' = user s + 1.
Proof.
  intros k kb s r Hkb Hs Hk Hr Ha.
  destruct (refresh_count (Z.of_nat k) kb k s r Hkb Hs Hk Hr Ha) as (s' & E & H1 & H2).
  exists s'. split; auto. rewrite H1, <- Hk in H2. unfold crossings in H2.
  replace (now s + us_per_day - 1 - r) with (now s - 1 - r + 1 * us_per_day) in H2 by lia.
  rewrite Z.div_add in H2 by (unfold us_per_day; lia). lia.
Qed.
Print Assumptions C19_every_24h.

(** Misaligned grids: no call ever, so the simulator runs as if undecorated. *)
Theorem C19_misaligned_never : forall U kb on body n s s' r k, kb = BeforeRefresh \/ kb = AfterRefresh ->
  0 < step_size s -> us_per_day = k * step_size s ->
  (now s - r) mod step_size s <> 0 ->
  (iterate n (decorated kb r on (tstep body)) s = Ok s' <-> iterate n (tstep (U := U) body) s = Ok s').
Proof. exact refresh_never. Qed.
Print Assumptions C19_misaligned_never.

Example C19_example : exists s s',
  iterate 24 (decorated AfterRefresh (minutes 240) count_on (tstep idle)) (mkT (jan1 + minutes 60) (minutes 60) 0 0) = Ok s /\
  user s = 1 /\
  iterate 24 (decorated AfterRefresh (minutes 240) count_on (tstep idle)) (mkT (jan1 + minutes 61) (minutes 60) 0 0) = Ok s' /\
  user s' = 0.
Proof. do 2 eexists. conj_vm. Qed.
