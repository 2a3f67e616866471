(** * Vocabulary for the statements about lighting. *)

From Coq Require Import List ZArith QArith Bool Arith.
From Verif Require Import Prelude SpecBase Appliance_Spec Light_Model.
Import ListNotations.

Open Scope Q_scope.

(** A simulator of [n] households with [k] bulbs each. *)
Definition lights (n k : nat) (s : lsim) : Prop :=
  shaped n k (l_power s) /\ shaped n k (l_use s) /\ length (l_thr s) = n /\ shaped n k (l_left s).

(** What is stored about bulb [j] of household [h]. *)
Record bulb := Bulb { b_pow : option Q; b_use : Q; b_thr : Q; b_left : Z }.
Definition bulb_at (s : lsim) (h j : nat) (b : bulb) : Prop :=
  at2 (l_power s) h j (b_pow b) /\ at2 (l_use s) h j (b_use b) /\ at_ (l_thr s) h (b_thr b) /\ at2 (l_left s) h j (b_left b).
Definition same_bulb (b c : bulb) : Prop := b_pow c = b_pow b /\ b_use c = b_use b /\ b_thr c = b_thr b.

(** A bulb is lit while it has time left. *)
Definition lit (s : lsim) (h j : nat) : Prop := exists b, bulb_at s h j b /\ (0 < b_left b)%Z.

(** Inputs of one step. *)
Record lin := LIn { in_d : ldraws; in_occ : list Z; in_irr : Q }.
Definition light_do (par : lpar) (s : lsim) (i : lin) : result lsim := light_step par s (in_d i) (in_occ i) (in_irr i).
Fixpoint light_run (par : lpar) (s : lsim) (l : list lin) : result lsim :=
  match l with [] => Ok s | i :: t => bind (light_do par s i) (fun s1 => light_run par s1 t) end.

(** Households with, and without, active occupants. *)
Definition active (i : lin) (h : nat) : Prop := exists n, at_ (in_occ i) h n /\ (0 < n)%Z.
Definition nobody (i : lin) (h : nat) : Prop := at_ (in_occ i) h 0%Z.

(** The draws of the step switch on the bulb: it is dark (or the 5% draw
    comes up), and the switch-on draw is below effective occupancy times
    relative use times calibration. *)
Definition drawn_on (par : lpar) (i : lin) (h j : nat) (b : bulb) : Prop :=
  (in_irr i < b_thr b \/ d_five (in_d i) h j < 5 # 100) /\
  exists n e, at_ (in_occ i) h n /\ at_ (p_eff par) (Z.to_nat n) e /\ d_on (in_d i) h j < e * b_use b * p_cal par.

(** Duration drawn: the first interval whose cumulative probability exceeds
    the draw (the first one if there is none), then a point of this interval. *)
Definition picks (cdf : list Q) (e : Q) (k : nat) : Prop :=
  (exists c, at_ cdf k c /\ e < c /\ forall k' c', (k' < k)%nat -> at_ cdf k' c' -> c' <= e) \/
  (k = 0%nat /\ forall k' c', at_ cdf k' c' -> c' <= e).
Definition drawn_duration (par : lpar) (i : lin) (h j : nat) (q : Q) : Prop :=
  exists k lo hi, picks (p_cdf par) (d_int (in_d i) h j) k /\ at_ (p_low par) k lo /\ at_ (p_high par) k hi /\
    q == lo + d_pos (in_d i) h j * (hi - lo).

(** One minute later. *)
Definition less_one (t : Z) : Z := if Z.ltb 0 t then (t - 1)%Z else t.
