(** * Vocabulary for the statements about the older appliance simulator. *)

From Coq Require Import String List ZArith QArith Bool Arith.
From Verif Require Import Prelude SpecBase Appliance_Model Appliance_Spec Light_Spec Wash_Model.
Import ListNotations.

Open Scope Q_scope.

(** The arrays have a row per household and a column per appliance. *)
Definition laid_out (n : nat) (s : wsim) : Prop :=
  shaped n (List.length (z_apps s)) (z_own s) /\ shaped n (List.length (z_apps s)) (z_cells s).

(** An appliance just switched on: electrical ones for their mean duration, fixtures for the
    time a drawn volume takes. *)
Definition started (w : usage) (a : wapp) (draw : Q) (c : cell) : Prop :=
  int_part (c_left c + wa_delay a) (c_refresh c) /\
  (~ In (wa_name a) (us_labels w) -> c_left c == wa_dur a) /\
  (In (wa_name a) (us_labels w) -> exists p cdf i v, at_ (us_labels w) p (wa_name a) /\ at_ (us_cdfs w) p cdf /\
     picks cdf draw i /\ at_ (us_litres w) i v /\ c_left c * wa_power a == v).

(** The programme of the machines, [t] minutes after the start: heating, four rinses every 13
    minutes, fast spin, drying, and in between the drum turns. *)
Definition heating_up (t : Q) : Prop := 8 < t /\ t <= 29.
Definition rinsing (t : Q) : Prop := exists k, (k < 4)%nat /\ 92 + 13 * inject_Z (Z.of_nat k) < t /\ t <= 94 + 13 * inject_Z (Z.of_nat k).
Definition fast_spin (t : Q) : Prop := 133 < t /\ t <= 138.
Definition drying (t : Q) : Prop := 138 < t /\ t <= 198.
Definition programme (t p : Q) : Prop :=
  (heating_up t -> p == 2056) /\ (rinsing t -> p == 250) /\ (fast_spin t -> p == 568) /\ (drying t -> p == 2500) /\
  (t <= 133 -> ~ heating_up t -> ~ rinsing t -> p == 73) /\ (198 < t -> p == 0).

(** Water used at a place in n minutes. *)
Inductive poured (w : usage) (h j : nat) : nat -> wsim -> Q -> Prop :=
| poured_none : forall s, poured w h j 0 s 0
| poured_more : forall n s x q, at2 (old_water w s) h j x -> poured w h j n (old_tick s) q -> poured w h j (S n) s (x + q).

(** Electricity used at a place in n minutes, in watt minutes. *)
Inductive metered (h j : nat) : nat -> wsim -> Q -> Prop :=
| metered_none : forall s, metered h j 0 s 0
| metered_more : forall n s m x q, old_powers s = Ok m -> at2 m h j x -> metered h j n (old_tick s) q -> metered h j (S n) s (x + q).

Fixpoint ticks (n : nat) (s : wsim) : wsim := match n with O => s | S m => ticks m (old_tick s) end.
