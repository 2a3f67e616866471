(** * Relative use of the bulbs (demod/simulators/lighting_simulators.py 366-375), over the
    real numbers.

    Floating point rounding is not represented.  [None] is the infinity of
    [- 2.3 * np.log(0.)], which numpy returns with a warning. *)

From Coq Require Import List Reals Arith.
From Verif Require Import Prelude.
Import ListNotations.
Local Open Scope R_scope.

(** The factor of line 375. *)
Definition use_scale : R := 2.30258509299404.

(** Line 375 for one draw of [np.random.uniform], in [0, 1). *)
Definition one_use (r : R) : option R := if Req_EM_T r 0 then None else Some (- use_scale * ln r).

(** _generate_relative_use, lines 366-375: one draw [r h j] for each bulb of the table
    of bulb powers. *)
Definition relative_use {A} (bulbs_power : list (list A)) (r : nat -> nat -> R) : list (list (option R)) :=
  map2 (fun h row => map2 (fun j _ => one_use (r h j)) (seq 0 (length row)) row) (seq 0 (length bulbs_power)) bulbs_power.
