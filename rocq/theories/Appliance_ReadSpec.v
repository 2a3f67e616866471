(** * Vocabulary for the readings of the appliances (C194). *)

From Coq Require Import String List ZArith QArith Bool Arith.
From Verif Require Import Prelude SpecBase Appliance_Model Appliance_Spec.
Import ListNotations.

Open Scope Q_scope.

(** Value of a sequence at a python position: positions below zero count from
    the end. *)
Definition python_at {A} (l : list A) (z : Z) (x : A) : Prop :=
  exists k, at_ l k x /\ (Z.of_nat k = z \/ (z < 0 /\ Z.of_nat k = Z.of_nat (length l) + z))%Z.

Definition python_outside {A} (l : list A) (z : Z) : Prop :=
  (Z.of_nat (length l) <= z \/ z < - Z.of_nat (length l))%Z.

(** The appliance runs and follows a load profile. *)
Definition follows (v : view) : Prop :=
  v_own v = true /\ 0 < v_left v /\ ap_variable (v_app v) = true.

(** The position in the profile: steps since the start of the cycle. *)
Definition elapsed (v : view) (z : Z) : Prop := int_part (qn (v_dur v) - v_left v) z.

Definition profiles_of (s : asim) (v : view) (profiles : list (list Q)) : Prop :=
  dget String.eqb (s_loads s) (ap_type (v_app v)) = Some profiles.
