(** * Model of the edit distance between profiles.

    Source: demod/metrics/states.py 375-439 [levenshtein_edit_distance].  The
    function [distance] comes from the external library python-Levenshtein;
    it is modelled by the usual row by row computation, as that library
    documents it.  The check that the library is installed is not modelled. *)

From Coq Require Import List ZArith Arith Decimal.
From Verif Require Import Prelude.
Import ListNotations.

(** Characters of a printed integer: digits 0 to 9, and 10 for the sign. *)
Fixpoint digits (u : uint) : list nat :=
  match u with
  | Nil => []
  | D0 u => 0 :: digits u | D1 u => 1 :: digits u | D2 u => 2 :: digits u | D3 u => 3 :: digits u | D4 u => 4 :: digits u
  | D5 u => 5 :: digits u | D6 u => 6 :: digits u | D7 u => 7 :: digits u | D8 u => 8 :: digits u | D9 u => 9 :: digits u
  end.

(** [array.astype(str)] for one integer (states.py 437-438). *)
Definition str_int (z : Z) : list nat :=
  match Z.to_int z with
  | Pos u => digits u
  | Neg u => 10 :: digits u
  end.

(** [''.join(profile.astype(str))] (states.py 437-438). *)
Definition text (profile : list Z) : list nat := flat_map str_int profile.

(** Rest of one row: [corner] is the previous row's entry left of [above],
    [left] the entry just computed. *)
Fixpoint next_cells (a : nat) (t : list nat) (corner left : nat) (above : list nat) : list nat :=
  match t, above with
  | b :: t', up :: above' =>
      let cell := Nat.min (Nat.min (S up) (S left)) (corner + (if Nat.eqb a b then 0 else 1)) in
      cell :: next_cells a t' up cell above'
  | _, _ => []
  end.

Definition next_row (t : list nat) (row : list nat) (a : nat) : list nat :=
  match row with
  | [] => []
  | corner :: above => S corner :: next_cells a t corner (S corner) above
  end.

(** [Levenshtein.distance] (external, used at states.py 436-439). *)
Definition distance (s t : list nat) : nat := last (fold_left (next_row t) s (seq 0 (S (length t)))) 0.

(** [levenshtein_edit_distance] (states.py 375-439). *)
Definition levenshtein_edit_distance (profile1 profile2 : list Z) : nat := distance (text profile1) (text profile2).
