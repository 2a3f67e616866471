(** * Specification of daily activity profiles. *)

From Coq Require Import String List ZArith QArith Bool Arith.
From Verif Require Import Prelude SpecBase Time_Model Time_Spec Subgroup_Model Subgroup_Spec Appliance_Model Appliance_Spec AppSetup_Model Daily_Model.
Import ListNotations.
Local Open Scope Z_scope.

Definition minutes (n : Z) : Z := n * 60000000.

(** The subgroup [g] with the day type of the instant [t]. *)
Definition dated (g : subgroup) (t : Z) (g' : subgroup) : Prop :=
  is_dict g' /\ (forall key, key <> "weekday"%string -> key <> "quarter"%string -> agree g' g key) /\
  (forall v, has g' "weekday" v <-> day_value t WeekEndsDays v) /\ lacks g' "quarter".

(** Probabilities, by active occupancy, of the activity [lab] for subgroup [g] at the
    instant [t]: the profile loaded for the day of the last refresh, in the ten-minute
    slot of the instant. *)
Definition in_slot (D : data) (dt : Z) (g : subgroup) (lab : string) (t : Z) (by_occ : list Q) : Prop :=
  exists R g' d p, latest_occurrence (d_refresh D) t R /\ dated g (R + dt) g' /\ d_load D g' = Ok d /\
    dget String.eqb d lab = Some p /\ at_ p (Z.to_nat ((t - R) / minutes 10 mod Z.of_nat (length p))) by_occ.

(** The profiles in force at [t]: for each subgroup and each activity. *)
Definition in_force (D : data) (dt : Z) (subs : list subgroup) (labels : list string) (t : Z) (pdf : list (list (list Q))) : Prop :=
  length pdf = length subs /\
  forall i g acts, at_ subs i g -> at_ pdf i acts -> length acts = length labels /\
  forall j lab by_occ, at_ labels j lab -> at_ acts j by_occ -> in_slot D dt g lab t by_occ.

(** Probabilities of the activity [lab] for subgroup [g] in some slot of some day. *)
Definition some_slot (D : data) (g : subgroup) (lab : string) (by_occ : list Q) : Prop :=
  exists t g' d p k, dated g t g' /\ d_load D g' = Ok d /\ dget String.eqb d lab = Some p /\ at_ p k by_occ.

(** A profile of one of the activities for one of the subgroups in use. *)
Definition tabled (D : data) (labels : list string) (u : daily) (p : profile) : Prop :=
  exists g d lab, In g (y_groups u) /\ d_load D g = Ok d /\ In lab labels /\ dget String.eqb d lab = Some p.

(** Step size, refresh time and start fit together. *)
Definition aligned (D : data) (dt start : Z) : Prop :=
  0 < dt /\ (minutes 1 | dt) /\ (dt | minutes 10) /\ 0 <= d_refresh D < us_per_day /\ (minutes 10 | d_refresh D) /\
  (dt | start - d_refresh D) /\ us_per_day <= start.

(** The conditions under which appliance [j], related to the activity [rel], starts in
    household [h] of a subgroup [g]. *)
Definition starts (D : data) (dt t : Z) (g : subgroup) (rel : string) (a : app) (i : step_in) (h j : nat) (v : view) : Prop :=
  v_own v = true /\ (v_left v <= 0)%Q /\ v_refresh v <= 0 /\
  exists n by_occ q, at_ (in_occ i) h n /\ 0 <= n /\ in_slot D dt g rel t by_occ /\ at_ by_occ (Z.to_nat n) q /\
    (in_u i h j < ap_prob a * q)%Q.

(** Nobody active and an appliance that is switched off then. *)
Definition left_alone (i : step_in) (h : nat) (a : app) : Prop := at_ (in_occ i) h 0%Z /\ ap_off a = true.

(** Uniform numbers are not negative. *)
Definition fair (i : step_in) : Prop := forall h j, (0 <= in_u i h j)%Q.

(** ** Arguments of the constructor *)

Record setup := Setup {
  c_data : data; c_step : option Z; c_start : Z; c_subs : list subgroup; c_counts : list Z; c_apps : list app; c_related : list string;
  c_own : list nat -> result (list (list bool)); c_algo : profiles_algo; c_switched : result real_loads; c_full : result real_loads;
  c_pick1 : nat -> nat -> nat; c_pick2 : nat -> nat -> nat; c_wait : nat -> nat -> Z; c_occ : option (list Z); c_ins : Z -> step_in }.

Definition new (c : setup) : result (list nat * tsim daily) :=
  make_daily (c_data c) (c_step c) (c_start c) (c_subs c) (c_counts c) (c_apps c) (c_related c) (c_own c) (c_algo c) (c_switched c) (c_full c)
    (c_pick1 c) (c_pick2 c) (c_wait c) (c_occ c) (c_ins c).

(** The labels of the activities of a simulator. *)
Definition c_labels (c : setup) : list string := activities_labels (c_related c).

(** Subgroups are dictionaries, the columns of the appliance dictionary have one length,
    the ownership array has one row per household and one column per appliance, and
    random numbers are not negative. *)
Definition proper (c : setup) : Prop :=
  (forall i g, at_ (c_subs c) i g -> is_dict g) /\ length (c_related c) = length (c_apps c) /\
  (forall types owned, c_own c types = Ok owned -> shaped (length types) (length (c_apps c)) owned) /\ (forall k, fair (c_ins c k)).

(** Step size, refresh time and start of a simulator fit together. *)
Definition c_aligned (c : setup) : Prop := aligned (c_data c) (d_step (c_data c)) (c_start c).

(** What a loader returns depends on the content of the dictionary only. *)
Definition content_only (D : data) : Prop :=
  forall g g', is_dict g -> is_dict g' -> (forall key, agree g g' key) -> d_load D g = d_load D g'.
