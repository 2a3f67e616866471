(** * Specifications for multi-simulators. *)

From Coq Require Import String List ZArith QArith Bool.
From Verif Require Import Prelude SpecBase.
Import ListNotations.

Section Multi.
  Variables (S X : Type) (nhh : S -> nat).

  (** First household of sub-simulator [i]. *)
  Definition first_household (l : list S) (i : nat) : nat := total_nat (map nhh (firstn i l)).

  (** [parts] cuts the per-household arguments [args]: one part per sub-simulator,
      each with as many arrays as there are arguments, each array having one entry
      per household of the sub-simulator; gluing the parts gives back [args]. *)
  Definition cuts (l : list S) (args : list (list X)) (parts : list (list (list X))) : Prop :=
    length parts = length l /\
    (forall i s p, at_ l i s -> at_ parts i p ->
       length p = length args /\ (forall a x, at_ p a x -> length x = nhh s)) /\
    (forall a arg, at_ args a arg -> arg = concat (map (fun p => nth a p []) parts)).

  (** One simulator run alone. *)
  Inductive runs_alone (sub_step : list (list X) -> S -> result S) : list (list (list X)) -> S -> S -> Prop :=
  | alone_none : forall s, runs_alone sub_step [] s s
  | alone_step : forall p t s s1 s', sub_step p s = Ok s1 -> runs_alone sub_step t s1 s' ->
      runs_alone sub_step (p :: t) s s'.
End Multi.
