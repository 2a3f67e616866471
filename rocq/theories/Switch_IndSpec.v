(** * Specification vocabulary for simulators of individuals that follow the calendar. *)

From Coq Require Import String List ZArith QArith Bool.
From Verif Require Import SpecBase Time_Model Subgroup_Model Subgroup_Spec Activity_Spec Switch_Spec.
Import ListNotations.
Local Open Scope string_scope.

(** [key] is the subgroup [g] with the day and the quarter of the instant [t]. *)
Definition dated (kind : day_types) (quarters : bool) (t : Z) (g key : subgroup) : Prop :=
  is_dict key /\ (forall k, k <> "weekday" -> k <> "quarter" -> agree key g k) /\
  (forall v, has key "weekday" v <-> day_value t kind v) /\
  (forall v, has key "quarter" v <-> quarters = true /\ exists n, v = VInt n /\ quarter_of (month (date_at t)) n).

(** The subgroup whose tables are in force for the step that begins at [t]. *)
Definition key_in_force (aware : bool) (kind : day_types) (quarters : bool) (r first t : Z) (g key : subgroup) : Prop :=
  (aware = true /\ exists b, last_of (refreshed r first t) b /\ dated kind quarters (b + ten) g key) \/
  ((aware = false \/ forall b, ~ refreshed r first t b) /\ key = g).
