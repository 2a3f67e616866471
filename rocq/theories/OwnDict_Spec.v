(** * Dictionaries with an entry for each copy of an appliance type. *)

From Coq Require Import String List ZArith QArith Bool Arith.
From Verif Require Import Prelude SpecBase Appliance_Spec.
Import ListNotations.
Open Scope string_scope.

(** The entry of the [k]-th copy. *)
Definition copy (name : string) (k : nat) : string := if Nat.eqb k 1 then name else name ++ "_" ++ decimal k.

(** The entries of the first, second, ... copy of [name] are [l], and there are
    no more. *)
Definition reads (d : list (string * Q)) (name : string) (l : list Q) : Prop :=
  forall k, (1 <= k)%nat -> dget String.eqb d (copy name k) = nth_error l (k - 1).

(** What the appliances called [name] got. *)
Definition share_of (name : string) (types : list string) (out : list Q) : Q :=
  total (map snd (filter (fun x => String.eqb (fst x) name) (combine types out))).

Definition number_of_type (name : string) (types : list string) : nat :=
  length (filter (fun t => String.eqb t name) types).
