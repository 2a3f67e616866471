(** * Properties of the temperatures of a day. *)

From Coq Require Import List ZArith QArith Bool Arith Lia Lqa Field.
From Verif Require Import Prelude PreludeFacts SpecBase SpecBaseFacts DayTemp_Model DayTemp_Spec DayTemp_Proofs.
Import ListNotations.
Local Open Scope Q_scope.

(** ** C97: the temperatures of a day *)

(** A day without light has no temperatures. *)
Theorem C97_no_light : forall td dtd solar irr clear, (forall i, ~ lit irr i) -> step_day td dtd solar irr clear = Err ValueError.
Proof.
  intros td dtd solar irr clear N. unfold step_day. destruct (first_true (map (Qltb 0) irr)) as [i|] eqn:E.
  - exfalso. apply first_light_true in E. exact (N i (proj1 E)).
  - destruct (nan_argmax _) as [[? ?]|]; reflexivity.
Qed.

(** Otherwise there is one temperature per minute; while the sun shines it follows the
    received part of the radiation, from [td - dtd/2] up to [td + dtd/2]. *)
Theorem C97_daylight : forall td dtd solar irr clear p rise set,
  0 < solar -> nonneg irr -> length clear = length irr -> peak solar irr p -> first_light irr rise -> last_light irr set ->
  exists T, step_day td dtd solar irr clear = Ok T /\ length T = length irr /\
  forall i, lit irr i -> (i < set)%nat ->
  exists v, at_ T i (Some v) /\ v == sunny (td - (1 # 2) * dtd) (td + (1 # 2) * dtd) solar irr p i.
Proof.
  intros td dtd solar irr clear p rise set S N L P R E.
  destruct (step_day_eq td dtd solar irr clear p rise set S N L P R E) as (c4 & H & C & V & _).
  exists (night_temps irr clear c4 rise set). split; [exact H|]. split; [apply (temps_length irr clear rise set L R E c4 C)|].
  intros i I J. destruct (V i I) as (v & V1 & V2). exists v. split; [|exact V2]. unfold at_.
  rewrite (proj2 (day_part irr clear rise set L R E c4 i C (conj (proj2 R i I) J))), V1. reflexivity.
Qed.

(** So it never leaves the range of the day before the maximum, never exceeds the
    highest temperature, and reaches it at the maximum. *)
Theorem C97_range : forall td dtd solar irr clear p rise set T i v,
  0 < solar -> 0 <= dtd -> nonneg irr -> length clear = length irr -> peak solar irr p -> first_light irr rise -> last_light irr set ->
  step_day td dtd solar irr clear = Ok T -> lit irr i -> (i < set)%nat -> at_ T i (Some v) ->
  v <= td + (1 # 2) * dtd /\ ((i <= p)%nat -> td - (1 # 2) * dtd <= v) /\ (i = p -> v == td + (1 # 2) * dtd).
Proof.
  intros td dtd solar irr clear p rise set T i v S D N L P R E H I J A.
  destruct (C97_daylight td dtd solar irr clear p rise set S N L P R E) as (T' & H' & _ & V).
  rewrite H in H'. injection H' as <-. destruct (V i I J) as (w & W1 & W2). unfold at_ in A, W1. rewrite A in W1. injection W1 as <-. rewrite W2.
  pose proof (received_pos solar S irr N p (proj1 P)) as RP. pose proof (received_pos solar S irr N i I) as RI.
  pose proof (proj1 (proj2 P) i I) as M. unfold sunny. set (r := received solar irr i / received solar irr p).
  assert (r0 : 0 <= r) by (apply Qle_shift_div_l; lra).
  assert (r1 : r <= 1) by (apply Qle_shift_div_r; lra).
  destruct (Nat.leb_spec i p) as [X|X].
  - split; [nra|]. split; [intros _; nra|]. intros ->. assert (r == 1) by (unfold r; field; lra). rewrite H0. ring.
  - split; [nra|]. split; [lia|lia].
Qed.

(** From the last minute with light on, and up to the first, every minute is colder
    than the minute before by its cooling; the first minute of the day follows the
    last minute of the same day. *)
Theorem C97_night : forall td dtd solar irr clear p rise set,
  0 < solar -> nonneg irr -> length clear = length irr -> peak solar irr p -> first_light irr rise -> last_light irr set ->
  (rise < set)%nat -> ~ dark_minutes irr == 0 ->
  exists T, step_day td dtd solar irr clear = Ok T /\
  forall i c, ((i < rise)%nat \/ (set <= i)%nat) -> at_ clear i c ->
  exists t t', at_ T i (Some t) /\ at_ T (minute_before (length irr) i) (Some t') /\
  t == t' - cooling (td - (1 # 2) * dtd) (td + (1 # 2) * dtd) solar irr clear p rise set c.
Proof.
  intros td dtd solar irr clear p rise set S N L P R E RS D.
  destruct (step_day_eq td dtd solar irr clear p rise set S N L P R E) as (c4 & H & C & V & _).
  exists (night_temps irr clear c4 rise set). split; [exact H|].
  exact (night_part td dtd solar irr clear p rise set N L R E c4 C RS D V).
Qed.

(** The night should lead back to the temperature of sunrise.  It does not: the cooling
    starts from the minute before the last minute with light, and that last minute
    is cooled as well although it has no share. *)
Theorem C97_night_end_partial : forall td dtd solar irr clear p rise set,
  0 < solar -> nonneg irr -> length clear = length irr -> peak solar irr p -> first_light irr rise -> last_light irr set ->
  (0 < rise < set)%nat -> ~ dark_minutes irr == 0 -> (forall i, (rise <= i <= set)%nat -> lit irr i) ->
  let low := td - (1 # 2) * dtd in let high := td + (1 # 2) * dtd in
  exists T t c, step_day td dtd solar irr clear = Ok T /\ at_ T (rise - 1) (Some t) /\ at_ clear set c /\
  t == sunny low high solar irr p rise + (sunny low high solar irr p (set - 1) - sunny low high solar irr p set)
       - cooling low high solar irr clear p rise set c.
Proof.
  intros td dtd solar irr clear p rise set S N L P R E RS D Mid low high.
  destruct (C97_night td dtd solar irr clear p rise set S N L P R E (proj2 RS) D) as (T & H & W).
  destruct (C97_daylight td dtd solar irr clear p rise set S N L P R E) as (T' & H' & LT & V). rewrite H in H'. injection H' as <-.
  pose proof (rise_set irr rise set R E) as SL.
  pose proof (night_total low high solar irr clear T p rise set L N D R E Mid (proj1 RS) W) as X.
  destruct (W (rise - 1)%nat (nth (rise - 1) clear 0) ltac:(left; lia)) as (t & t' & A & _). { unfold at_. apply nth_error_nth'. lia. }
  destruct (V (set - 1)%nat (Mid (set - 1)%nat ltac:(lia)) ltac:(lia)) as (v & V1 & V2).
  exists T, t, (nth set clear 0). split; [exact H|]. split; [exact A|]. split; [unfold at_; apply nth_error_nth'; lia|].
  unfold value in X. unfold at_ in A, V1. rewrite A, V1 in X. rewrite X, V2. fold low high. ring.
Qed.

(** A minute without light between sunrise and sunset has temperature 0, whatever the
    day. *)
Theorem C97_dark_minute : forall td dtd solar irr clear p rise set i,
  0 < solar -> nonneg irr -> length clear = length irr -> peak solar irr p -> first_light irr rise -> last_light irr set ->
  (rise < i < set)%nat -> dark irr i -> exists T, step_day td dtd solar irr clear = Ok T /\ at_ T i (Some 0).
Proof.
  intros td dtd solar irr clear p rise set i S N L P R E I D.
  destruct (step_day_eq td dtd solar irr clear p rise set S N L P R E) as (c4 & H & C & _ & Z).
  exists (night_temps irr clear c4 rise set). split; [exact H|]. unfold at_.
  rewrite (proj2 (day_part irr clear rise set L R E c4 i C ltac:(lia))). rewrite (Z i); [reflexivity| |].
  - intros (x & X1 & X2). destruct D as (y & Y1 & Y2). unfold at_ in X1, Y1. rewrite X1 in Y1. injection Y1 as <-. lra.
  - pose proof (rise_set irr rise set R E). lia.
Qed.

Theorem C97_dark_minute_refuted : exists td dtd solar irr clear T t, nonneg irr /\ 0 < solar /\ 0 < dtd /\ length clear = length irr /\
  step_day td dtd solar irr clear = Ok T /\ at_ T 2 (Some t) /\ t < td - 10 * dtd.
Proof.
  exists 30, 2, 1, [0; 1; 0; 1; 1; 0], [1; 1; 1; 1; 1; 1]. eexists. exists 0.
  split; [|split; [reflexivity|split; [reflexivity|split; [reflexivity|split; [vm_compute; reflexivity|split; [vm_compute; reflexivity|reflexivity]]]]]].
  apply nonneg_Forall. repeat constructor; vm_compute; discriminate.
Qed.

(** A day without night has no temperature at its end. *)
Theorem C97_no_night : forall td dtd solar irr clear p rise set,
  0 < solar -> nonneg irr -> length clear = length irr -> peak solar irr p -> first_light irr rise -> last_light irr set ->
  dark_minutes irr == 0 -> exists T, step_day td dtd solar irr clear = Ok T /\ at_ T set None.
Proof.
  intros td dtd solar irr clear p rise set S N L P R E D.
  destruct (step_day_eq td dtd solar irr clear p rise set S N L P R E) as (c4 & H & C & _).
  exists (night_temps irr clear c4 rise set). split; [exact H|]. exact (no_night irr clear rise set N L R E c4 C D).
Qed.

(** A night that does not lead back to the temperature of sunrise. *)
Theorem C97_night_end_refuted : exists td dtd solar irr clear T t u, nonneg irr /\ 0 < solar /\ 0 < dtd /\ length clear = length irr /\
  step_day td dtd solar irr clear = Ok T /\ at_ T 1 (Some t) /\ at_ T 2 (Some u) /\ ~ t == u.
Proof.
  exists 10, 4, 2, [0; 0; 1; 2; 2; 0], [1; 1; 1; 1; 1; 1]. do 3 eexists.
  split; [|split; [reflexivity|split; [reflexivity|split; [reflexivity|split; [vm_compute; reflexivity|split; [vm_compute; reflexivity|split; [vm_compute; reflexivity|vm_compute; discriminate]]]]]]].
  apply nonneg_Forall. repeat constructor; vm_compute; discriminate.
Qed.

Example C97_example : match step_day 10 4 2 [0; 0; 1; 2; 2; 0] [1; 1; 1; 1; 1; 1] with
  | Ok T => map (option_map Qred) T = [Some 10; Some (142 # 15); Some (52 # 5); Some (58 # 5); Some (166 # 15); Some (158 # 15)]
  | Err _ => False end /\ peak 2 [0; 0; 1; 2; 2; 0] 4 /\ first_light [0; 0; 1; 2; 2; 0] 2 /\ last_light [0; 0; 1; 2; 2; 0] 4 /\ dark_minutes [0; 0; 1; 2; 2; 0] == 3.
Proof.
  assert (K : forall i, lit [0; 0; 1; 2; 2; 0] i -> i = 2%nat \/ i = 3%nat \/ i = 4%nat).
  { intros i (x & E & P). unfold at_ in E. destruct i as [|[|[|[|[|[|i]]]]]]; cbn in E; try (injection E as <-; vm_compute in P; try discriminate; tauto). destruct i; discriminate. }
  assert (L : lit [0; 0; 1; 2; 2; 0] 2 /\ lit [0; 0; 1; 2; 2; 0] 4) by (split; eexists; (split; [reflexivity|reflexivity])).
  split; [vm_compute; reflexivity|]. split; [|split; [|split; [|vm_compute; reflexivity]]].
  - split; [tauto|]. split; intros i I; destruct (K i I) as [-> |[-> | ->]]; try (intros; lia); vm_compute; intros; try discriminate; reflexivity.
  - split; [tauto|]. intros j J. destruct (K j J) as [-> |[-> | ->]]; lia.
  - split; [tauto|]. intros j J. destruct (K j J) as [-> |[-> | ->]]; lia.
Qed.

Print Assumptions C97_no_light.
Print Assumptions C97_daylight.
Print Assumptions C97_range.
Print Assumptions C97_night.
Print Assumptions C97_night_end_partial.
Print Assumptions C97_dark_minute.
Print Assumptions C97_dark_minute_refuted.
Print Assumptions C97_no_night.
Print Assumptions C97_night_end_refuted.
