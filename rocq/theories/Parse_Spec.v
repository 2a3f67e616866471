(** * Specification vocabulary for the parsing helpers. *)

From Coq Require Import List ZArith QArith Arith.
From Verif Require Import SpecBase.
Import ListNotations.

(** Diaries as a list of rows: person [p] is in state [x] at time [i]. *)
Definition diary {A} (rows : list (list A)) (p i : nat) (x : A) : Prop :=
  exists row, at_ rows p row /\ at_ row i x.

(** Every diary has [n] time steps. *)
Definition full {A} (n : nat) (rows : list (list A)) : Prop :=
  forall p row, at_ rows p row -> length row = n.

(** The time step before [i], cyclically. *)
Definition before (n i : nat) : nat := match i with O => n - 1 | S j => j end.

(** Person [p] goes from [old] to [new] at time [i]. *)
Definition goes {A} (n : nat) (rows : list (list A)) (i p : nat) (new old : A) : Prop :=
  diary rows p i new /\ diary rows p (before n i) old.
Definition changes {A} (n : nat) (rows : list (list A)) (i p : nat) (new old : A) : Prop :=
  goes n rows i p new old /\ new <> old.

(** Line [k] of four parallel arrays. *)
Definition line {A} (times persons : list nat) (news olds : list A) (k i p : nat) (new old : A) : Prop :=
  at_ times k i /\ at_ persons k p /\ at_ news k new /\ at_ olds k old.

(** Lines ordered by time, then by person, without repetition. *)
Definition lexicographic (times persons : list nat) : Prop :=
  forall k k' i i' p p', (k < k')%nat -> at_ times k i -> at_ times k' i' -> at_ persons k p -> at_ persons k' p' ->
    (i < i' \/ i = i' /\ p < p')%nat.

(** Four parallel arrays list exactly the moves selected by [sel], in order. *)
Definition listing {A} (sel : nat -> nat -> A -> A -> Prop) (times persons : list nat) (news olds : list A) : Prop :=
  length persons = length times /\ length news = length times /\ length olds = length times /\
  (forall i p new old, (exists k, line times persons news olds k i p new old) <-> sel i p new old) /\
  lexicographic times persons.

(** The state [x] that starts at time [i] lasts exactly [d] steps, going round the clock. *)
Definition lasts {A} (n : nat) (rows : list (list A)) (p i : nat) (x : A) (d : Z) : Prop :=
  (0 < d)%Z /\
  (forall j, (Z.of_nat j < d)%Z -> diary rows p ((i + j) mod n) x) /\
  ~ diary rows p ((i + Z.to_nat d) mod n) x.

(** The lines of person [p] of an array. *)
Definition of_person {B} (persons : list nat) (l : list B) (p : nat) : list B :=
  map snd (filter (fun x => Nat.eqb (fst x) p) (combine persons l)).

(** Number of persons satisfying a test. *)
Definition persons_with {A} (test : list A -> bool) (rows : list (list A)) : Q :=
  inject_Z (Z.of_nat (length (filter test rows))).

Definition is_at (i s : nat) (row : list nat) : bool :=
  match nth_error row i with Some x => Nat.eqb x s | None => false end.

(** Number of time steps at the start of the diary spent in state [x]. *)
Fixpoint run_length (x : nat) (row : list nat) : nat :=
  match row with
  | y :: t => if Nat.eqb x y then S (run_length x t) else 0
  | [] => 0
  end.

(** The first episode of the diary lasts [d] steps. *)
Definition first_lasts (d : nat) (row : list nat) : bool :=
  match row with [] => false | x :: _ => Nat.eqb (run_length x row) d end.

(** The matrix [m] over [n] states holds the observed frequencies of the moves
    from time [from] to time [to]. *)
Definition frequencies (n : nat) (rows : list (list nat)) (from to : nat) (m : list (list Q)) : Prop :=
  length m = n /\
  forall a row, at_ m a row ->
    length row = n /\ is_pdf row /\
    forall b q, at_ row b q ->
      let seen := persons_with (is_at from a) rows in
      let moved := persons_with (fun r => is_at from a r && is_at to b r)%bool rows in
      (0 < seen -> q == moved / seen) /\
      (seen == 0 -> q == if Nat.eqb b a then 1 else 0).

(** [pdf] is [row] divided by its sum; without counts it is 1, 0, 0... *)
Definition scaled (row pdf : list Q) : Prop :=
  length pdf = length row /\ is_pdf pdf /\
  forall j c q, at_ row j c -> at_ pdf j q ->
    (0 < total row -> q == c / total row) /\
    (total row == 0 -> q == if Nat.eqb j 0 then 1 else 0).

(** A comparison function that is a total order. *)
Definition total_order {A} (cmp : A -> A -> comparison) : Prop :=
  (forall x y, cmp x y = Eq <-> x = y) /\
  (forall x y, cmp y x = CompOpp (cmp x y)) /\
  (forall x y z, cmp x y = Lt -> cmp y z = Lt -> cmp x z = Lt).

(** [pdf] has [n] entries proportional to the weights [w]; without weight it is
    concentrated on entry [z]. *)
Definition shares (z n : nat) (w : nat -> Q) (pdf : list Q) : Prop :=
  length pdf = n /\ is_pdf pdf /\
  forall j q, at_ pdf j q ->
    let sum := total (map w (seq 0 n)) in
    (0 < sum -> q == w j / sum) /\
    (sum == 0 -> q == if Nat.eqb j z then 1 else 0).

(** Number of positions of parallel arrays that hold the given values. *)
Definition lines3 (xs ys zs : list nat) (x y z : nat) : Q :=
  inject_Z (Z.of_nat (length (filter (fun l => Nat.eqb (fst (fst l)) x && Nat.eqb (snd (fst l)) y && Nat.eqb (snd l) z)%bool
    (combine (combine xs ys) zs)))).
Definition lines4 (xs ys zs ts : list nat) (x y z t : nat) : Q :=
  inject_Z (Z.of_nat (length (filter (fun l => Nat.eqb (fst (fst (fst l))) x && Nat.eqb (snd (fst (fst l))) y &&
    Nat.eqb (snd (fst l)) z && Nat.eqb (snd l) t)%bool
    (combine (combine (combine xs ys) zs) ts)))).

(** Number of persons that are in state [s] the whole day. *)
Definition whole_day (s : nat) (rows : list (list nat)) : Q :=
  persons_with (fun r => forallb (Nat.eqb s) r) rows.

(** The distinct states of the diaries number [k]. *)
Definition distinct_states (rows : list (list nat)) (k : nat) : Prop :=
  exists u, NoDup u /\ length u = k /\ forall x, In x u <-> exists p i, diary rows p i x.

(** Number of diaries of household [h] on day [d] that go from [old] to [new] at time [i]. *)
Definition household_moves (n : nat) (rows : list (list nat)) (households days : list nat) (i new old h d : nat) : nat :=
  length (filter (fun p => match nth_error rows p, nth_error households p, nth_error days p with
                           | Some row, Some h', Some d' =>
                               is_at i new row && is_at (before n i) old row && Nat.eqb h' h && Nat.eqb d' d
                           | _, _, _ => false
                           end)%bool (seq 0 (length rows))).

(** State [x] is neither the primary nor the secondary state of person [p] at time [i]. *)
Definition vanished {A} (primary secondary : list (list A)) (p i : nat) (x : A) : Prop :=
  ~ diary primary p i x /\ ~ diary secondary p i x.
