(** * Shared value types and numpy primitives of the model.

    Nothing in this file is specific to demod: it fixes how Python exceptions,
    numpy arrays and rational numbers are represented in the model. *)

From Coq Require Import List ZArith QArith Qround Bool Lia Lqa Arith.
Import ListNotations.

Set Implicit Arguments.

(** Python exceptions that the modelled code can raise. *)
Inductive py_error : Set :=
| ValueError
| TypeError
| KeyError
| IndexError
| NotImplementedError
| StopIteration
| ZeroDivisionError
| AttributeError
| FileNotFoundError
| RecursionError
| AssertionError.

(** Outcome of a Python call: a value or an exception. *)
Inductive result (A : Type) : Type :=
| Ok (a : A)
| Err (e : py_error).
Arguments Ok {A} a.
Arguments Err {A} e.

Definition bind {A B} (x : result A) (f : A -> result B) : result B :=
  match x with Ok a => f a | Err e => Err e end.

Definition is_ok {A} (x : result A) : bool :=
  match x with Ok _ => true | Err _ => false end.

(** Strict comparison on rationals (the standard library only has [Qle_bool]). *)
Definition Qltb (a b : Q) : bool := negb (Qle_bool b a).

(** [np.sum] of a one dimensional array. *)
Fixpoint qsum (l : list Q) : Q :=
  match l with
  | [] => 0
  | x :: t => x + qsum t
  end.

(** [np.cumsum]: running sums from the left, starting with [acc]. *)
Fixpoint cumsum_from (acc : Q) (l : list Q) : list Q :=
  match l with
  | [] => []
  | x :: t => (acc + x) :: cumsum_from (acc + x) t
  end.
Definition cumsum (l : list Q) : list Q := cumsum_from 0 l.

(** Index of the first [true]. *)
Fixpoint first_true (m : list bool) : option nat :=
  match m with
  | [] => None
  | true :: _ => Some 0%nat
  | false :: t => option_map S (first_true t)
  end.

(** [np.argmax] of a boolean array along an axis: the first index holding the
    maximum, hence 0 when every entry is [False]; [ValueError] on an empty axis. *)
Definition argmax_bool (m : list bool) : result nat :=
  match m with
  | [] => Err ValueError
  | _ => Ok (match first_true m with Some i => i | None => 0%nat end)
  end.

(** [np.searchsorted(a, x)] (side='left') on a sorted array: the first index
    whose value is at least [x], or [len(a)] when there is none. *)
Fixpoint searchsorted (a : list Q) (x : Q) : nat :=
  match a with
  | [] => 0%nat
  | y :: t => if Qle_bool x y then 0%nat else S (searchsorted t x)
  end.

(** [np.bincount(inds, minlength)]: length max(minlength, max+1). *)
Fixpoint list_max_nat (l : list nat) : nat :=
  match l with [] => 0%nat | x :: t => Nat.max x (list_max_nat t) end.

Fixpoint count_nat (x : nat) (l : list nat) : nat :=
  match l with
  | [] => 0%nat
  | y :: t => if Nat.eqb x y then S (count_nat x t) else count_nat x t
  end.

Definition bincount (inds : list nat) (minlength : nat) : list nat :=
  let len := Nat.max minlength (match inds with [] => 0%nat | _ => S (list_max_nat inds) end) in
  map (fun i => count_nat i inds) (seq 0 len).

(** Sequencing results over a list (a Python loop that stops at the first
    exception). *)
Fixpoint mapM {A B} (f : A -> result B) (l : list A) : result (list B) :=
  match l with
  | [] => Ok []
  | x :: t => bind (f x) (fun y => bind (mapM f t) (fun ys => Ok (y :: ys)))
  end.

(** Elementwise combination of two arrays of the same length. *)
Fixpoint map2 {A B C} (f : A -> B -> C) (l : list A) (m : list B) : list C :=
  match l, m with
  | x :: t, y :: u => f x y :: map2 f t u
  | _, _ => []
  end.

(** Association lists as Python dictionaries. *)
Section Dict.
  Variables (K V : Type) (eqb : K -> K -> bool).

  Fixpoint dget (d : list (K * V)) (k : K) : option V :=
    match d with
    | [] => None
    | (k', v) :: t => if eqb k k' then Some v else dget t k
    end.

  (** [d[k] = v]: replaces in place or appends (insertion order). *)
  Fixpoint dset (d : list (K * V)) (k : K) (v : V) : list (K * V) :=
    match d with
    | [] => [(k, v)]
    | (k', v') :: t => if eqb k k' then (k', v) :: t else (k', v') :: dset t k v
    end.

  (** [d.pop(k, None)] on a dictionary (keys are unique). *)
  Fixpoint ddel (d : list (K * V)) (k : K) : list (K * V) :=
    match d with
    | [] => []
    | (k', v') :: t => if eqb k k' then t else (k', v') :: ddel t k
    end.

  Definition dmem (d : list (K * V)) (k : K) : bool :=
    match dget d k with Some _ => true | None => false end.
End Dict.
