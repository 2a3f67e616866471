(** * Vocabulary for the statements about appliances. *)

From Coq Require Import String List ZArith QArith Bool Arith.
From Verif Require Import Prelude SpecBase Appliance_Model.
Import ListNotations.

Open Scope Q_scope.

(** Entry of row [h] and column [j]. *)
Definition at2 {A} (m : list (list A)) (h j : nat) (x : A) : Prop :=
  exists row, at_ m h row /\ at_ row j x.

(** An array of [n] rows and [k] columns. *)
Definition shaped {A} (n k : nat) (m : list (list A)) : Prop :=
  length m = n /\ forall h row, at_ m h row -> length row = k.

(** A simulator of [n] households: every array has one row per household and
    one column per appliance. *)
Definition simulates (n : nat) (s : asim) : Prop :=
  let k := length (s_apps s) in
  shaped n k (s_own s) /\ shaped n k (s_left s) /\ shaped n k (s_refresh s) /\
  shaped n k (s_load_dur s) /\ shaped n k (s_load_id s).

(** What is stored about appliance [j] of household [h]. *)
Record view := View { v_app : app; v_own : bool; v_left : Q; v_refresh : Z; v_dur : nat; v_id : nat }.
Definition sees (s : asim) (h j : nat) (v : view) : Prop :=
  at_ (s_apps s) j (v_app v) /\ at2 (s_own s) h j (v_own v) /\ at2 (s_left s) h j (v_left v) /\
  at2 (s_refresh s) h j (v_refresh v) /\ at2 (s_load_dur s) h j (v_dur v) /\ at2 (s_load_id s) h j (v_id v).

(** Everything but the two counters is the same. *)
Definition same_static (v w : view) : Prop :=
  v_app w = v_app v /\ v_own w = v_own v /\ v_dur w = v_dur v /\ v_id w = v_id v.

(** Length of a cycle started now, given the volume drawn for water
    appliances: the load profile comes first, then the volume divided by the
    flow, then the mean duration. *)
Definition cycle_length (v : view) (volume : nat) (d : Q) : Prop :=
  ((v_dur v > 0)%nat -> d == inject_Z (Z.of_nat (v_dur v))) /\
  (v_dur v = 0%nat -> ap_water (v_app v) = true -> d * ap_flow (v_app v) == inject_Z (Z.of_nat volume)) /\
  (v_dur v = 0%nat -> ap_water (v_app v) = false -> d == ap_duration (v_app v)).

(** In the occupancy simulator water appliances always use the volume. *)
Definition occ_cycle_length (v : view) (volume : nat) (d : Q) : Prop :=
  (ap_water (v_app v) = true -> d * ap_flow (v_app v) == inject_Z (Z.of_nat volume)) /\
  (ap_water (v_app v) = false -> (v_dur v > 0)%nat -> d == inject_Z (Z.of_nat (v_dur v))) /\
  (ap_water (v_app v) = false -> v_dur v = 0%nat -> d == ap_duration (v_app v)).

(** Integer part, toward zero. *)
Definition int_part (q : Q) (z : Z) : Prop :=
  (0 <= q -> inject_Z z <= q /\ q < inject_Z z + 1) /\
  (q <= 0 -> inject_Z z >= q /\ q > inject_Z z - 1).

(** [n] steps of the parent class. *)
Fixpoint after (n : nat) (s : asim) : asim :=
  match n with O => s | S n => base_step (after n s) end.

Definition qn (n : nat) : Q := inject_Z (Z.of_nat n).

(** Inputs of a step of the occupancy simulator. *)
Record occ_in := OccIn {
  i_pdf : list (list (list Q)); i_types : list nat;
  i_u : nat -> nat -> Q; i_vol : nat -> nat -> nat; i_vol2 : nat -> nat -> nat; i_occ : list Z }.
Definition occ_do (s : asim) (i : occ_in) : result asim :=
  occ_step s (i_pdf i) (i_types i) (i_u i) (i_vol i) (i_vol2 i) (i_occ i).
Fixpoint occ_run (s : asim) (l : list occ_in) : result asim :=
  match l with [] => Ok s | i :: t => bind (occ_do s i) (fun s1 => occ_run s1 t) end.

(** The states after each step of a run. *)
Fixpoint occ_trace (s : asim) (l : list occ_in) : result (list asim) :=
  match l with
  | [] => Ok []
  | i :: t => bind (occ_do s i) (fun s1 => bind (occ_trace s1 t) (fun r => Ok (s1 :: r)))
  end.

(** Uniform draws are not negative. *)
Definition draws (i : occ_in) : Prop := forall h j, 0 <= i_u i h j.

(** Probability that the activity of appliance [a] is performed in household
    [h], from the profile in force. *)
Definition activity_prob (i : occ_in) (h : nat) (a : app) (q : Q) : Prop :=
  exists t n acts by_occ, at_ (i_types i) h t /\ at_ (i_occ i) h n /\ (0 <= n)%Z /\
    at_ (i_pdf i) t acts /\ at_ acts (ap_act a) by_occ /\ at_ by_occ (Z.to_nat n) q.

(** The conditions under which an appliance starts. *)
Definition may_start (i : occ_in) (h j : nat) (v : view) : Prop :=
  v_own v = true /\ v_left v <= 0 /\ (v_refresh v <= 0)%Z /\
  exists q, activity_prob i h (v_app v) q /\ i_u i h j < ap_prob (v_app v) * q.

(** The inactivity switch-off applies to the appliance in this step. *)
Definition forced_off (i : occ_in) (h : nat) (v : view) : Prop :=
  at_ (i_occ i) h 0%Z /\ ap_off (v_app v) = true.

(** One step down, not below zero for integers. *)
Definition down_Z (z : Z) : Z := if Z.ltb 0 z then (z - 1)%Z else z.
Definition down_Q (q q' : Q) : Prop := (0 < q -> q' == q - 1) /\ (q <= 0 -> q' == q).

(** ** Strings *)

(** [t] is [s] without some of its leading words. *)
Definition word_suffix (t s : string) : Prop := t = s \/ exists p, s = (p ++ "_" ++ t)%string.

(** The type looked up for [s] in [types]. *)
Definition is_closest (s : string) (types : list string) (t : string) : Prop :=
  t <> EmptyString /\ word_suffix t s /\ In t types /\
  forall t', t' <> EmptyString -> word_suffix t' s -> In t' types ->
             word_suffix t' t.

(** Position [i] is the [n]-th appliance whose closest type is [t]. *)
Definition nth_of_type (types known : list string) (t : string) (i n : nat) : Prop :=
  exists l, NoDup l /\ length l = n /\
    forall i', In i' l <-> (i' <= i)%nat /\ exists s, at_ types i' s /\ is_closest s known t.

(** Decimal notation without leading zeros is injective, and is what
    [string_of_uint] of the standard library prints. *)
Definition decimal (n : nat) : string := DecimalString.NilEmpty.string_of_uint (Nat.to_uint n).
