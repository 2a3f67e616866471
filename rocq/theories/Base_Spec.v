(** * Specifications for simulators, loggers and cached getters. *)

From Coq Require Import String List ZArith QArith Bool.
From Verif Require Import Prelude SpecBase Base_Model.
Import ListNotations.

(** ** Runs of a simulator, ignoring logger and cache

    [one a c s s']: the body of the step method called with [a] in state [s] at
    step counter [c] leaves state [s']. *)
Section Steps.
  Variables (St A : Type) (one : A -> nat -> St -> St -> Prop).

  Inductive reaches : list A -> nat -> St -> nat -> St -> Prop :=
  | reach_none : forall c s, reaches [] c s c s
  | reach_step : forall a t c s s1 c' s',
      one a c s s1 -> reaches t (S c) s1 c' s' -> reaches (a :: t) c s c' s'.
End Steps.

(** Body of a step: what is done before and after the base step. *)
Definition body {St A} (pre post : A -> nat -> St -> result St) (a : A) (c : nat) (s s' : St) : Prop :=
  exists m, pre a c s = Ok m /\ post a (S c) m = Ok s'.

(** ** What a logger keeps of an observation *)

Definition summed (s s' : simple) : Prop :=
  match s, s' with
  | SArr l, SNum q => q == total l
  | SNum a, SNum b => a = b
  | STime a, STime b => a = b
  | _, _ => False
  end.

Definition kept (aggregate : bool) (s s' : simple) : Prop :=
  if aggregate then summed s s' else s' = s.

(** Attribute [a] is logged, with the given aggregation flag. *)
Definition logs (l : logger) (a : string) (g : bool) : Prop :=
  exists i, at_ (attrs l) i a /\ at_ (aggregated l) i g.

(** Number of records of an attribute. *)
Definition n_records (l : logger) (a : string) (n : nat) : Prop :=
  exists c, dget String.eqb (store l) a = Some c /\
  match c with
  | CList x => length x = n
  | CDict d => forall k x, In (k, x) d -> length x = n
  end.

Definition well_formed (l : logger) : Prop :=
  NoDup (attrs l) /\ length (aggregated l) = length (attrs l) /\
  forall a, In a (attrs l) -> exists c, dget String.eqb (store l) a = Some c.

(** An attribute with nothing recorded: its data is the empty list. *)
Definition no_data (l : logger) (a : string) : Prop :=
  dget String.eqb (store l) a = Some (CList []).

(** ** Caches agreeing with the state *)
Definition coherent {St} (raw : St -> nat -> string -> result value) (x : sim St) : Prop :=
  forall n v, dget String.eqb (cache x) n = Some v -> raw (st x) (ctr x) n = Ok v.
