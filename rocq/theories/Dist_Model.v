(** * Distances of arrays (demod/metrics/errors.py and metrics/loads.py 40-98), over the
    real numbers.

    Floating point rounding is not represented.  An array of one dimension is a table of
    one row, which is how numpy broadcasts it. *)

From Coq Require Import List Reals Arith.
From Verif Require Import Prelude.
Import ListNotations.
Local Open Scope R_scope.

Definition rsum (l : list R) : R := fold_right Rplus 0 l.

(** Broadcasting along one dimension: equal lengths, or a length of one. *)
Definition bcast {A B C} (f : A -> B -> C) (xs : list A) (ys : list B) : result (list C) :=
  if (length xs =? length ys)%nat then Ok (map2 f xs ys)
  else match xs, ys with
       | [x], _ => Ok (map (f x) ys)
       | _, [y] => Ok (map (fun x => f x y) xs)
       | _, _ => Err ValueError
       end.

(** Along both dimensions of two tables. *)
Definition bcast2 {A B C} (f : A -> B -> C) (xs : list (list A)) (ys : list (list B)) : result (list (list C)) :=
  bind (bcast (bcast f) xs ys) (mapM (fun r => r)).

(** [np.mean] of all entries, nan without entries. *)
Definition rmean (l : list R) : option R := match l with [] => None | _ => Some (rsum l / INR (length l)) end.

(** RMSE, errors.py 8-21. *)
Definition rmse (x1 x2 : list (list R)) : result (option R) :=
  bind (bcast2 (fun a b => (a - b) ^ 2) x1 x2) (fun s => Ok (option_map sqrt (rmean (concat s)))).

(** The default metric of scipy: the euclidean distance. *)
Definition euclid (x y : list R) : R := sqrt (rsum (map2 (fun a b => (a - b) ^ 2) x y)).

(** profiles_similarity, loads.py 40-67: [cdist] refuses different numbers of columns.
    The profiles are not empty sets. *)
Definition width_of (p : list (list R)) : nat := match p with [] => O | r :: _ => length r end.

Definition cdist (d : list R -> list R -> R) (p t : list (list R)) : result (list (list R)) :=
  if (width_of p =? width_of t)%nat then Ok (map (fun x => map (d x) t) p) else Err ValueError.

Definition profiles_similarity (simulated target : list (list R)) : result (list (list R)) := cdist euclid simulated target.

(** [pdist]: the distances of profile 0 to 1, 2, ..., of profile 1 to 2, ... *)
Fixpoint pdist (d : list R -> list R -> R) (p : list (list R)) : list R :=
  match p with
  | [] => []
  | x :: t => map (d x) t ++ pdist d t
  end.

(** profiles_variety, loads.py 70-98: with average=False and with average=True. *)
Definition profiles_distances (p : list (list R)) : list R := pdist euclid p.
Definition profiles_variety (p : list (list R)) : option R := rmean (profiles_distances p).
