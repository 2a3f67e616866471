(** * Specification vocabulary for the example simulators. *)

From Coq Require Import List ZArith QArith Bool.
From Verif Require Import Prelude SpecBase Time_Model Time_Spec Toy_Model.
Import ListNotations.
Local Open Scope Q_scope.

(** What household [h] gets from an amount. *)
Definition share (a : amount) (h : nat) : Q :=
  match a with Scalar _ v => v | Array _ [v] => v | Array _ vs => nth h vs 0 end.

(** Amounts that can be added to [n] households counted with type [d]. *)
Definition accepted (d : dtype) (n : nat) (a : amount) : Prop :=
  (d = DInt -> dtype_of a = DInt) /\ match a with Scalar _ _ => True | Array _ vs => length vs = n \/ length vs = 1%nat end.

(** Everybody who arrived in household [h], and everybody who left it. *)
Definition arrived (ins : list (amount * amount)) (h : nat) : Q := total (map (fun i => share (fst i) h) ins).
Definition departed (ins : list (amount * amount)) (h : nat) : Q := total (map (fun i => share (snd i) h) ins).

(** A run; the first exception ends it. *)
Fixpoint example_run (s : esim) (ins : list (amount * amount)) : esim * option py_error :=
  match ins with
  | [] => (s, None)
  | i :: t => match example_step s i with (s1, None) => example_run s1 t | r => r end
  end.

Fixpoint aware_run (s : tsim toy) (ins : list (amount * amount)) : result (tsim toy) :=
  match ins with
  | [] => Ok s
  | i :: t => bind (aware_step i s) (fun s1 => aware_run s1 t)
  end.

(** [m] of [n] households have nobody inside. *)
Fixpoint empties (l : list Q) : nat :=
  match l with [] => O | x :: t => if Qeq_dec x 0 then S (empties t) else empties t end.
