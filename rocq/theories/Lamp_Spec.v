(** * Vocabulary for the statements about the older lighting simulator. *)

From Coq Require Import List ZArith QArith Bool Arith.
From Verif Require Import Prelude SpecBase Appliance_Spec Light_Model Light_Spec Lamp_Model.
Import ListNotations.

Open Scope Q_scope.

(** A simulator of [n] households with [k] bulbs each. *)
Definition old_lights (n k : nat) (s : osim) : Prop :=
  shaped n k (o_power s) /\ shaped n k (o_use s) /\ length (o_thr s) = n /\ shaped n k (o_left s).

(** What is stored about bulb [j] of household [h]; the time left may be nan. *)
Record obulb := OBulb { ob_pow : option Q; ob_use : Q; ob_thr : Q; ob_left : option Q }.
Definition obulb_at (s : osim) (h j : nat) (b : obulb) : Prop :=
  at2 (o_power s) h j (ob_pow b) /\ at2 (o_use s) h j (ob_use b) /\ at_ (o_thr s) h (ob_thr b) /\ at2 (o_left s) h j (ob_left b).
Definition same_obulb (b c : obulb) : Prop := ob_pow c = ob_pow b /\ ob_use c = ob_use b /\ ob_thr c = ob_thr b.

(** The bulb has [t] minutes left; it is lit if this is positive. *)
Definition has_left (b : obulb) (t : Q) : Prop := exists x, ob_left b = Some x /\ x == t.
Definition olit (s : osim) (h j : nat) : Prop := exists b t, obulb_at s h j b /\ has_left b t /\ 0 < t.

Definition old_do (par : lpar) (s : osim) (i : lin) : result osim := old_step par s (in_d i) (in_occ i) (in_irr i).
Fixpoint old_run (par : lpar) (s : osim) (l : list lin) : result osim :=
  match l with [] => Ok s | i :: t => bind (old_do par s i) (fun s1 => old_run par s1 t) end.

(** The draws of the step switch on the bulb. *)
Definition switches_on (par : lpar) (i : lin) (h j : nat) (b : obulb) : Prop :=
  (in_irr i < ob_thr b \/ d_five (in_d i) h j < 5 # 100) /\
  exists n e, at_ (in_occ i) h n /\ at_ (p_eff par) (Z.to_nat n) e /\ d_on (in_d i) h j < e * ob_use b * p_cal par.

(** A bulb takes part in the draws of a step if its time is zero or is over with this step,
    exactly. *)
Definition ready (b : obulb) : Prop := has_left b 0 \/ has_left b 1.

(** Its time after one minute, when it is not switched on. *)
Definition minute_less (b b' : obulb) : Prop :=
  (ob_left b = None -> ob_left b' = None) /\
  (forall t, has_left b t -> 0 < t -> has_left b' (t - 1)) /\
  (forall t, has_left b t -> t <= 0 -> has_left b' t).

(** The number is not an integer. *)
Definition fractional (q : Q) : Prop := forall z : Z, ~ q == inject_Z z.
