(** * Specifications for sparse transition matrices. *)

From Coq Require Import List ZArith QArith Bool Sorted.
From Verif Require Import Prelude SpecBase Sparse_Model Sampling_Spec.
Import ListNotations.

(** Entry (i, j) of a dense matrix. *)
Definition entry_at (m : list (list Q)) (i j : nat) (v : Q) : Prop := exists row, at_ m i row /\ at_ row j v.

Definition square (n : nat) (m : list (list Q)) : Prop :=
  length m = n /\ forall i row, at_ m i row -> length row = n.

(** Matrices equal entry by entry. *)
Definition same_matrix (m m' : list (list Q)) : Prop := Forall2 eqQ_list m m'.

(** The stored columns are parallel. *)
Definition parallel (p : tpm) : Prop :=
  length (t_from p) = length (t_times p) /\ length (t_to p) = length (t_times p) /\
  length (t_values p) = length (t_times p).

(** The transitions stored for time [t] from state [s], in storage order. *)
Definition row_of (p : tpm) (t s : Z) : list (Z * Q) :=
  map (fun e => (e_to e, e_val e))
    (filter (fun e => ((e_time e =? t) && (e_from e =? s))%Z)
       (zip4 (t_times p) (t_from p) (t_to p) (t_values p))).

(** Row [s] exists, is non-negative and of total one. *)
Definition stochastic_row (p : tpm) (t s : Z) : Prop := is_pdf (map snd (row_of p t s)).

(** Stored in order of origin. *)
Definition ordered_by_origin (p : tpm) (t : Z) : Prop :=
  Sorted Z.le (map e_from (filter (fun e => e_time e =? t)%Z
    (zip4 (t_times p) (t_from p) (t_to p) (t_values p)))).

(** Inverse-CDF sampling of a row: entry [k] covers the draw. *)
Definition covers (weights : list Q) (r : Q) (k : nat) : Prop :=
  mass_before weights k < r /\ r <= mass_before weights (S k).
