(** * Vocabulary for the statements about the start of an appliance simulation. *)

From Coq Require Import String List ZArith QArith Bool Arith.
From Verif Require Import Prelude SpecBase Appliance_Model Appliance_Spec AppSetup_Model.
Import ListNotations.
Local Open Scope nat_scope.

(** Household [h] is one of the [c] households of subgroup [i]: the households are
    numbered subgroup after subgroup. *)
Definition belongs (counts : list Z) (h i : nat) : Prop :=
  exists c, at_ counts i c /\ (total_Z (firstn i counts) <= Z.of_nat h < total_Z (firstn i counts) + c)%Z.

(** The activities that last the whole day. *)
Definition whole_day (activity : string) : Prop := activity = "level"%string \/ activity = "constant"%string.

(** Where the profile of an appliance comes from: the 'full' profiles for activities
    of the whole day, the 'switchedON' profiles for the others. *)
Definition source (algo : profiles_algo) (switched full : result real_loads) (activity : string) (real : real_loads) : Prop :=
  (whole_day activity /\ (algo = OnlyAlwaysOn \/ algo = Uniform) /\ full = Ok real) \/
  (~ whole_day activity /\ (algo = OnlySwitchedOn \/ algo = Uniform) /\ switched = Ok real).

Definition known (real : real_loads) (t : string) : Prop := exists ps, In (t, ps) real.

(** The stored number, duration and table rows of an appliance of type [t] are those
    of a profile of the data: the row is the profile followed by zeros. *)
Definition follows (real : real_loads) (t : string) (tables : list (string * list (list Q))) (id dur : nat) : Prop :=
  exists ps name p rows zeros, dget String.eqb real t = Some ps /\ at_ ps id (name, p) /\ dur = length p /\
    dget String.eqb tables t = Some rows /\ at_ rows id (p ++ zeros) /\ Forall (fun x => x = 0%Q) zeros.

(** Number and duration stored for appliance [j] of household [h]. *)
Definition assigned (L : loads) (h j id dur : nat) : Prop := at2 (l_id L) h j id /\ at2 (l_dur L) h j dur.

(** The numbers drawn are numbers of profiles. *)
Definition picks (types : list string) (real : real_loads) (pick : nat -> nat -> nat) : Prop :=
  forall h j t ps, at_ types j t -> dget String.eqb real t = Some ps -> pick h j < length ps.

(** An appliance of the same type runs the whole day and has a profile. *)
Definition shares_type (types related : list string) (full : result real_loads) (t : string) : Prop :=
  exists real j r, full = Ok real /\ known real t /\ at_ types j t /\ at_ related j r /\ whole_day r.

(** Every profile of the data has at least [m] values and every type has a profile. *)
Definition at_least (m : nat) (real : real_loads) : Prop :=
  forall t ps, dget String.eqb real t = Some ps -> ps <> [] /\ forall i name p, at_ ps i (name, p) -> m <= length p.

(** The numbers of steps drawn for the start are inside the profiles. *)
Definition starts (durs : list (list nat)) (start : nat -> nat -> nat) : Prop :=
  forall h j d, at2 durs h j d -> 1 < d -> 1 <= start h j < d.
