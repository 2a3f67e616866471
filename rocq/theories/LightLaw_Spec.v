(** * Specification vocabulary for the probabilities of the lighting. *)

From Coq Require Import List ZArith QArith Qminmax Bool Arith.
From Verif Require Import Prelude SpecBase Light_Model Light_Spec Law_Spec.
Import ListNotations.
Local Open Scope Q_scope.

(** The probability that a uniform number is below [x]. *)
Definition clip (x : Q) : Q := Qmax 0 (Qmin 1 x).

(** What a step is told: the active occupants of all households, and the irradiance. *)
Definition env : Type := list Z * Q.

Definition possible (par : lpar) (n : nat) (v : env) : Prop :=
  length (fst v) = n /\ forall h m, at_ (fst v) h m -> (0 <= m < Z.of_nat (length (p_eff par)))%Z.
Definition someone (h : nat) (v : env) : Prop := (0 < nth h (fst v) 0)%Z.

(** Intervals of at least one minute. *)
Definition good_durations (par : lpar) : Prop :=
  p_cdf par <> [] /\ (length (p_cdf par) <= length (p_low par))%nat /\ (length (p_cdf par) <= length (p_high par))%nat /\
  forall k lo hi, at_ (p_low par) k lo -> at_ (p_high par) k hi -> 1 <= lo /\ lo <= hi.

(** The chance that a step lights a dark bulb. *)
Definition chance (par : lpar) (b : bulb) (h : nat) (v : env) : Q :=
  (if Qlt_le_dec (snd v) (b_thr b) then 1 else 1 # 20) *
  clip (nth (Z.to_nat (nth h (fst v) 0%Z)) (p_eff par) 0 * b_use b * p_cal par).

(** Inputs of steps whose draws for bulb [j] of household [h] are [us], two for each
    step; all other draws are arbitrary. *)
Fixpoint follows (h j : nat) (vs : list env) (us : list Q) (ins : list lin) : Prop :=
  match vs, us, ins with
  | [], [], [] => True
  | v :: vs, five :: on :: us, i :: ins =>
      (in_occ i = fst v /\ in_irr i = snd v /\ d_five (in_d i) h j = five /\ d_on (in_d i) h j = on /\ 0 <= d_pos (in_d i) h j) /\
      follows h j vs us ins
  | _, _, _ => False
  end.

(** The run raises nothing, and the bulb is dark after each step. *)
Fixpoint dark_for (par : lpar) (s : lsim) (h j : nat) (ins : list lin) : Prop :=
  match ins with
  | [] => True
  | i :: t => exists s1, light_do par s i = Ok s1 /\ ~ lit s1 h j /\ dark_for par s1 h j t
  end.

(** The bulb is lit after the last step for the first time. *)
Fixpoint first_lit (par : lpar) (s : lsim) (h j : nat) (ins : list lin) : Prop :=
  match ins with
  | [] => False
  | [i] => exists s1, light_do par s i = Ok s1 /\ lit s1 h j
  | i :: t => exists s1, light_do par s i = Ok s1 /\ ~ lit s1 h j /\ first_lit par s1 h j t
  end.

(** Independent trials with success probabilities [qs]: no success, and the first
    success at the last. *)
Definition none_of (qs : list Q) : Q := product (map (fun q => 1 - q) qs).
Definition at_last (qs : list Q) : Q := none_of (removelast qs) * last qs 0.

(** The cumulative sums of a distribution. *)
Definition cumulated (p cdf : list Q) : Prop :=
  length cdf = length p /\ forall k c, at_ cdf k c -> c == total (firstn (S k) p).

(** The share of the interval from [lo] to [hi] that lies in minute [m]. *)
Definition minute_share (m : Z) (lo hi : Q) : Q :=
  if Qeq_bool lo hi then (if Qle_bool (inject_Z m) lo && negb (Qle_bool (inject_Z m + 1) lo) then 1 else 0)
  else Qmax 0 (Qmin hi (inject_Z m + 1) - Qmax lo (inject_Z m)) / (hi - lo).

(** The probability of [m] minutes. *)
Definition minutes (par : lpar) (p : list Q) (m : Z) : Q :=
  total (map (fun k => entry p k * minute_share m (nth k (p_low par) 0) (nth k (p_high par) 0)) (seq 0 (length p))).

(** One step with the four draws of the bulb. *)
Definition drawn_step (h j : nat) (v : env) (us : list Q) (i : lin) : Prop :=
  in_occ i = fst v /\ in_irr i = snd v /\
  us = [d_five (in_d i) h j; d_on (in_d i) h j; d_int (in_d i) h j; d_pos (in_d i) h j].
