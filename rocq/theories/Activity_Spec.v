(** * Specification vocabulary for the activity simulators. *)

From Coq Require Import List ZArith QArith Arith Bool.
From Verif Require Import SpecBase Sampling_Spec.
Import ListNotations.

(** Draw [r] selects entry [i] of the probability row [p]: it lies in an interval
    whose length is the probability of [i]. *)
Definition selects (p : list Q) (r : Q) (i : nat) : Prop :=
  (i < length p)%nat /\ mass_before p i <= r /\ r < mass_before p (S i).

(** Entry [i] of a row has a positive probability. *)
Definition possible (p : list Q) (i : nat) : Prop := exists x, at_ p i x /\ 0 < x.

(** A stochastic matrix over [n] states. *)
Definition stochastic (n : nat) (m : list (list Q)) : Prop :=
  length m = n /\ forall s row, at_ m s row -> length row = n /\ is_pdf row.

(** Uniform draws of [0,1). *)
Definition unit_draws (u : nat -> Q) : Prop := forall k, 0 <= u k /\ u k < 1.

(** Row [s] of the matrix number [t]. *)
Definition row_at {A} (tables : list (list A)) (t s : nat) (row : A) : Prop :=
  exists m, at_ tables t m /\ at_ m s row.

(** Number of households before [i] that satisfy a test. *)
Definition rank {A} (test : A -> bool) (l : list A) (i : nat) : nat :=
  length (filter test (firstn i l)).

(** A pdf of durations, of positive length. *)
Definition duration_pdf (row : list Q) : Prop := is_pdf row.

(** Number of members of a household for which [f] holds. *)
Definition members {A} (f : A -> bool) (l : list A) : Z := Z.of_nat (length (filter f l)).

(** Numbers of ten-minute slots since four in the morning, for a time of day given in
    microseconds. *)
Definition slots_since_4am (tod k : Z) : Prop :=
  let four := (4 * 3600 * 1000000)%Z in
  let slot := (600 * 1000000)%Z in
  let day := (24 * 3600 * 1000000)%Z in
  exists since, ((0 <= since < day) /\ (four + since) mod day = tod /\ k * slot <= since < (k + 1) * slot)%Z.

(** Label of a household whose members each do some activities: base-[b] digits
    count the members of each activity. *)
Definition coded (b : Z) (members : list (list nat)) : Z :=
  fold_right Z.add 0%Z (map (fun acts => fold_right Z.add 0%Z (map (fun a => b ^ Z.of_nat a)%Z acts)) members).

(** Duration tables: by time and new state, or by time, old state and new state. *)
Inductive dur_tables :=
| ByNew (l : list (list (list Q)))
| ByOldNew (l : list (list (list (list Q)))).

(** The pdf of the durations when going from [s] to [s'] at table [t]. *)
Definition dur_row (d : dur_tables) (t s s' : nat) (row : list Q) : Prop :=
  match d with
  | ByNew l => row_at l t s' row
  | ByOldNew l => exists m, row_at l t s m /\ at_ m s' row
  end.

Definition dur_length (d : dur_tables) : nat :=
  match d with ByNew l => length l | ByOldNew l => length l end.

(** At least one table, each with a pdf for each (pair of) state(s). *)
Definition dur_valid (n : nat) (d : dur_tables) : Prop :=
  (0 < dur_length d)%nat /\
  match d with
  | ByNew l => forall t m, at_ l t m -> length m = n /\ forall s row, at_ m s row -> is_pdf row
  | ByOldNew l => forall t m, at_ l t m -> length m = n /\
      forall s m', at_ m s m' -> length m' = n /\ forall s' row, at_ m' s' row -> is_pdf row
  end.

(** A timer that has run out. *)
Definition over (t : Z) : bool := (t <? 1)%Z.

(** Number of entries of [hh] equal to [h]: the persons of household [h]. *)
Definition persons_of (h : nat) (hh : list nat) : nat := length (filter (Nat.eqb h) hh).

(** Number of marked persons of household [h]. *)
Definition marked_of (h : nat) (hh : list nat) (mask : list bool) : nat :=
  length (filter (fun p => (fst p && Nat.eqb h (snd p))%bool) (combine mask hh)).

(** Households are numbered group after group, group [g] having [n] of them. *)
Definition in_group (sizes : list nat) (g h : nat) : Prop :=
  exists n, at_ sizes g n /\ (total_nat (firstn g sizes) <= h < total_nat (firstn g sizes) + n)%nat.

(** Number of times a person [k] occurs in the description of a household. *)
Definition occurrences {K} (keqb : K -> K -> bool) (k : K) (l : list K) : nat := length (filter (keqb k) l).

(** Label [lab] stands at position [p] of [labels] and nowhere else. *)
Definition sole_position {L} (labels : list L) (lab : L) (p : nat) : Prop :=
  at_ labels p lab /\ forall q, at_ labels q lab -> q = p.
