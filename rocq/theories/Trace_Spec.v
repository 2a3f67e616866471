(** * Vocabulary for the statements about tracebase profiles. *)

From Coq Require Import String List ZArith QArith Bool Arith.
From Verif Require Import Prelude SpecBase Trace_Model.
Import ListNotations.

(** Readings in the order of time. *)
Definition in_order (r : readings) : Prop :=
  forall i a b, at_ r i a -> at_ r (S i) b -> (fst a <= fst b)%Z.

(** [v] lies on the straight line through two readings, at second [s]. *)
Definition on_line (a b : Z * Q) (s : Z) (v : Q) : Prop :=
  (v - snd a) * inject_Z (fst b - fst a) == (snd b - snd a) * inject_Z (s - fst a).

(** First and last reading. *)
Definition first_reading (r : readings) (a : Z * Q) : Prop := at_ r 0 a.
Definition final_reading (r : readings) (b : Z * Q) : Prop := at_ r (length r - 1) b.

(** Load of second [k] of a measurement, nothing after its end. *)
Definition load_at (load : list Q) (k : nat) (x : Q) : Prop :=
  at_ load k x \/ ((length load <= k)%nat /\ x = 0).

(** [x] is the mean of the [w] seconds from second [k * w]. *)
Definition mean_of (load : list Q) (w k : nat) (x : Q) : Prop :=
  exists l, length l = w /\ (forall i y, at_ l i y -> load_at load (k * w + i) y) /\ x * inject_Z (Z.of_nat w) == total l.

(** Entry of a dictionary of dictionaries. *)
Definition entry (d : profiles) (type file : string) (p : list Q) : Prop :=
  exists m, dget String.eqb d type = Some m /\ dget String.eqb m file = Some p.

(** File [file] of a directory for the demod type [type]. *)
Definition recorded (table : list (string * string)) (dirs : list (string * list (string * readings))) (type file : string) (r : readings) : Prop :=
  exists dir files, In (dir, files) dirs /\ dget String.eqb table dir = Some type /\ In (file, r) files.

(** No file name occurs twice for a type. *)
Definition one_file (table : list (string * string)) (dirs : list (string * list (string * readings))) : Prop :=
  forall type file r r', recorded table dirs type file r -> recorded table dirs type file r' -> r = r'.

(** [p] is the part of [load] between two values above 6 W, all others being
    outside. *)
Definition on_part (load p : list Q) : Prop :=
  exists before after, load = before ++ p ++ after /\
    Forall (fun x => x <= 6) before /\ Forall (fun x => x <= 6) after /\
    (exists x t, p = x :: t /\ 6 < x) /\ (exists x t, p = t ++ [x] /\ 6 < x).
