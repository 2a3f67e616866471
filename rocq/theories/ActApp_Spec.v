(** * Vocabulary for the statements about activity driven appliances. *)

From Coq Require Import String List ZArith QArith Bool Arith.
From Verif Require Import Prelude SpecBase Appliance_Model Appliance_Spec AppSetup_Model AppSetup_Spec ActApp_Model.
Import ListNotations.
Local Open Scope nat_scope.

(** [c] residents of household [h] perform [act]. *)
Definition performs (acts : list (string * list Z)) (act : string) (h : nat) (c : Z) : Prop :=
  exists l, dget String.eqb acts act = Some l /\ at_ l h c.

(** The activities of a step: one entry for each activity and one count for each
    household. *)
Definition counts_of (n : nat) (acts : list (string * list Z)) : Prop :=
  NoDup (map fst acts) /\ forall act l, In (act, l) acts -> length l = n /\ Forall (fun c => 0 <= c)%Z l.

Definition mentions (acts : list (string * list Z)) (act : string) : Prop := In act (map fst acts).

(** Any number of steps. *)
Fixpoint act_run (st : actsim) (l : list (list (string * list Z))) : result actsim :=
  match l with [] => Ok st | acts :: t => bind (act_step st acts) (fun st1 => act_run st1 t) end.

(** Appliance [j] of household [h]: what is stored and whether it is marked as used. *)
Definition cell (st : actsim) (h j : nat) (v : view) (b : bool) : Prop :=
  sees (a_base st) h j v /\ at2 (a_used st) h j b.

(** The arrays of a simulator of [n] households. *)
Definition formed (n : nat) (st : actsim) : Prop :=
  simulates n (a_base st) /\ shaped n (length (s_apps (a_base st))) (a_used st) /\ length (a_related st) = length (s_apps (a_base st)).

(** An activity that nobody performed before is performed now. *)
Definition begins (before acts : list (string * list Z)) (act : string) (h : nat) : Prop :=
  performs before act h 0 /\ exists c, (0 < c)%Z /\ performs acts act h c.

(** The activity does not begin in any of the steps. *)
Fixpoint no_begin (before : list (string * list Z)) (l : list (list (string * list Z))) (act : string) (h : nat) : Prop :=
  match l with [] => True | acts :: t => ~ begins before acts act h /\ no_begin acts t act h end.

(** The next value read in the load profile is number [i]. *)
Definition position (v : view) (i : nat) : Prop := i < v_dur v /\ (v_left v == qn (v_dur v - i))%Q.

(** The profile stored for an appliance. *)
Definition stored_profile (s : asim) (v : view) (profile : list Q) : Prop :=
  exists profiles, dget String.eqb (s_loads s) (ap_type (v_app v)) = Some profiles /\ at_ profiles (v_id v) profile.

(** A simulator of [n] households just constructed. *)
Definition built (n : nat) (apps : list app) (related : list string) (own : list (list bool)) (algo : profiles_algo)
    (switched full : result real_loads) (pick1 pick2 start : nat -> nat -> nat) (wait : nat -> nat -> Z)
    (acts : list (string * list Z)) (st : actsim) : Prop :=
  length related = length apps /\ shaped n (length apps) own /\ counts_of n acts /\
  make_activity apps related own algo switched full pick1 pick2 start wait acts = Ok st.

(** Value of number [i] of the stored profile is the power read. *)
Definition reads (st : actsim) (P : list (list Q)) (h j i : nat) : Prop :=
  exists v profile x p, sees (a_base st) h j v /\ stored_profile (a_base st) v profile /\ at_ profile i x /\ at2 P h j p /\ (p == x)%Q.
