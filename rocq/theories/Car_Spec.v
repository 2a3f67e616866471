(** * Vocabulary for the statements about electric cars. *)

From Coq Require Import List ZArith QArith Bool Arith.
From Verif Require Import Prelude SpecBase Appliance_Model Appliance_Spec Car_Model.
Import ListNotations.

Open Scope Q_scope.

(** Inputs of one step. *)
Record cin := CIn { i_arr : list Q; i_dep : list Q; i_occ : list Z; i_hoh : list Z; i_hwh : list Z }.
Definition car_do (s : csim) (i : cin) : result csim := car_step s (i_arr i) (i_dep i) (i_occ i) (i_hoh i) (i_hwh i).
Fixpoint car_run (s : csim) (l : list cin) : result csim :=
  match l with [] => Ok s | i :: t => bind (car_do s i) (fun s1 => car_run s1 t) end.

(** A simulator of [n] households: one station per household, one charging
    strategy per household, every car belongs to one of them. *)
Definition fleet (n : nat) (s : csim) : Prop :=
  length (k_station s) = n /\ length (k_occ s) = n /\ length (k_hoh s) = n /\ length (k_hwh s) = n /\
  (forall k c, at_ (k_cars s) k c -> (c_hh c < n)%nat) /\
  (forall st, k_strategy s = Some st -> length st = n).

(** One uniform number per household, between 0 and 1. *)
Definition uniform (n : nat) (i : cin) : Prop :=
  length (i_arr i) = n /\ length (i_dep i) = n /\
  (forall h u, at_ (i_arr i) h u -> 0 <= u < 1) /\ (forall h u, at_ (i_dep i) h u -> 0 <= u < 1).

(** Number of cars of household [h] satisfying [P]. *)
Definition cars_of (s : csim) (h : nat) (P : car -> bool) : nat :=
  length (filter (fun c => Nat.eqb (c_hh c) h && P c) (k_cars s)).

(** The step that ends is the first one of a day: nobody moves. *)
Definition quiet_step (s : csim) : Prop := (S (k_time s) mod 144 = 1)%nat.

(** People come home, with a car in nine cases out of ten. *)
Definition people_return (s : csim) (i : cin) (h : nat) : Prop :=
  exists o o' u, at_ (k_occ s) h o /\ at_ (i_occ i) h o' /\ at_ (i_arr i) h u /\ (o < o')%Z /\ 1 # 10 <= u.
(** More cars are away than people are out. *)
Definition car_left_over (s : csim) (i : cin) (h : nat) : Prop :=
  exists a w, at_ (i_hoh i) h a /\ at_ (i_hwh i) h w /\ (a + w < Z.of_nat (cars_of s h c_use))%Z.

(** Car [k] arrives: the first car away of a household where a car arrives. *)
Definition arrives (s : csim) (i : cin) (k : nat) (c : car) : Prop :=
  ~ quiet_step s /\ c_use c = true /\
  (people_return s i (c_hh c) \/ car_left_over s i (c_hh c)) /\
  (forall k' c', (k' < k)%nat -> at_ (k_cars s) k' c' -> c_hh c' = c_hh c -> c_use c' = false).

(** At home once the arrivals are done. *)
Definition home (s : csim) (i : cin) (k : nat) (c : car) : Prop := c_use c = false \/ arrives s i k c.

(** Probability that a car leaves the household. *)
Definition prob_of (l : list Q) (m : Z) (p : Q) : Prop := (0 <= m)%Z /\ at_ l (Z.to_nat m) p.
(** The share of departures of 0, 1, ... 5 persons that take the car, by
    destination: not to work, to work. *)
Definition share_leisure : list Q := [0; 0.62679598; 0.81792453; 0.87903226; 0.93333333; 1].
Definition share_work : list Q := [0; 0.52228261; 0.47798742; 0.5; 0.5; 0.5].
Definition departs (s : csim) (i : cin) (h : nat) : Prop :=
  exists o o' a a' w w' u p, at_ (k_occ s) h o /\ at_ (i_occ i) h o' /\ at_ (k_hoh s) h a /\ at_ (i_hoh i) h a' /\
    at_ (k_hwh s) h w /\ at_ (i_hwh i) h w' /\ at_ (i_dep i) h u /\ u < p /\ (o' < o)%Z /\
    (((a < a')%Z /\ prob_of share_leisure (o - o') p) \/ ((a' <= a)%Z /\ (w < w')%Z /\ prob_of share_work (o - o') p)).

(** Steps of ten minutes from step [t] of the day to the next time the clock
    shows step [timer]. *)
Definition until_timer (timer t n : Z) : Prop :=
  ((t < timer)%Z -> n = timer - t)%Z /\ ((timer <= t)%Z -> n = timer - t + 144)%Z.

(** Car [k] leaves: the first car at home of a household where a car leaves. *)
Definition leaves (s : csim) (i : cin) (k : nat) (c : car) : Prop :=
  ~ quiet_step s /\ home s i k c /\ departs s i (c_hh c) /\
  (forall k' c', (k' < k)%nat -> at_ (k_cars s) k' c' -> c_hh c' = c_hh c -> ~ home s i k' c').

(** What does not change. *)
Definition same_car (c d : car) : Prop := c_hh d = c_hh c /\ c_cons d = c_cons c /\ c_timer d = c_timer c.

(** Charging steps (of ten minutes) a trip of [m] steps asks for: 23 km per
    hour of trip, [cons] kWh per 100 km, at power [p] W. *)
Definition charge_steps (cons : Q) (m : Z) (p : Q) (z : Z) : Prop :=
  ~ p == 0 /\ exists e, e * 100 == cons * (inject_Z m / 6 * 23) /\ int_part (e * 3600000 / p / 600) z.

(** Energy in J read by [get_car_electric_consumption] for car [k] after each of some
    steps of ten minutes. *)
Fixpoint joules (s : csim) (l : list cin) (k : nat) : result Q :=
  match l with
  | [] => Ok 0
  | i :: t => bind (car_do s i) (fun s' => bind (vget (driving_consumption s') k) (fun w => bind (joules s' t k) (fun e => Ok (w * 600 + e))))
  end.
