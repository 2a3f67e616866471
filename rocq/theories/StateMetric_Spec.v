(** * Specification side for the state metrics. *)

From Coq Require Import List ZArith QArith Qabs Bool Arith.
From Verif Require Import SpecBase.
Import ListNotations.

Definition boxed {A} (w : nat) (rs : list (list A)) : Prop := forall r, In r rs -> length r = w.

(** A run is a label with its duration. *)
Definition unroll (runs : list (nat * nat)) : list nat := concat (map (fun p => repeat (fst p) (snd p)) runs).

(** The same row started at another time. *)
Definition rotation (r r' : list nat) : Prop := exists a b, r = (a ++ b)%list /\ r' = (b ++ a)%list.

(** Neighbouring runs, also the last and the first one, have different labels. *)
Definition alternating (runs : list (nat * nat)) : Prop :=
  forall i a b, at_ (runs ++ firstn 1 runs)%list i a -> at_ (runs ++ firstn 1 runs)%list (S i) b -> fst a <> fst b.

(** The runs of a row of which the end is joined with the beginning. *)
Definition runs_of (r : list nat) (runs : list (nat * nat)) : Prop :=
  (exists x, r <> [] /\ (forall y, In y r -> y = x) /\ runs = [(x, length r)]) \/
  (runs <> [] /\ rotation r (unroll runs) /\ alternating runs /\ forall p, In p runs -> (0 < snd p)%nat).

Definition varies (r : list nat) : Prop := exists a b, In a r /\ In b r /\ a <> b.

(** Time spent in a state, and number of cells with it. *)
Fixpoint time_in (s : nat) (runs : list (nat * nat)) : nat :=
  match runs with [] => 0 | (l, d) :: t => (if Nat.eqb s l then d else 0) + time_in s t end.
Fixpoint cells_in (s : nat) (r : list nat) : nat :=
  match r with [] => 0 | x :: t => (if Nat.eqb s x then 1 else 0) + cells_in s t end.

(** Durations of the runs of a state. *)
Definition durations_of (s : nat) (runs : list (nat * nat)) : list nat := map snd (filter (fun p => Nat.eqb s (fst p)) runs).

(** Share of a list of durations that lasts at most [t]. *)
Definition share (t : nat) (ds : list nat) : Q :=
  (inject_Z (Z.of_nat (length (filter (fun d => Nat.leb d t) ds))) / inject_Z (Z.of_nat (length ds)))%Q.

(** Mean of a column. *)
Definition col_mean (rs : list (list Q)) (j : nat) : Q := (total (map (fun r => nth j r 0%Q) rs) / inject_Z (Z.of_nat (length rs)))%Q.

(** The documented average error between the columns. *)
Definition mean_gap (w : nat) (rs rs' : list (list Q)) : Q :=
  (total (map (fun j => Qabs (col_mean rs j - col_mean rs' j)) (seq 0 w)) / inject_Z (Z.of_nat w))%Q.

(** The time before [t] in a cyclic day of [w] steps. *)
Definition before (w t : nat) : nat := match t with 0%nat => (w - 1)%nat | S k => k end.

(** A pattern goes from [a] to [b] at time [t]. *)
Definition moves (w : nat) (rs : list (list nat)) (t a b : nat) : Prop :=
  (t < w)%nat /\ exists r, In r rs /\ at_ r (before w t) a /\ at_ r t b.
(** A pattern has state [a] at time [t]. *)
Definition visits (rs : list (list nat)) (t a : nat) : Prop := exists r, In r rs /\ at_ r t a.

(** Number of times of a pattern at which the state is the one before. *)
Definition stays (w : nat) (r : list nat) : nat :=
  length (filter (fun t => match nth_error r t, nth_error r (before w t) with Some a, Some b => Nat.eqb a b | _, _ => false end) (seq 0 w)).

(** An enumeration without repetition. *)
Definition enumerates {A} (l : list A) (P : A -> Prop) : Prop := NoDup l /\ forall x, In x l <-> P x.

(** A table of equally long patterns of which at least one changes. *)
Definition varying (w : nat) (rs : list (list nat)) : Prop := (0 < w)%nat /\ boxed w rs /\ exists r, In r rs /\ varies r.
