(** * Specification vocabulary for the transitions of the time use survey. *)

From Coq Require Import List ZArith QArith Arith.
From Verif Require Import SpecBase Parse_Spec.
Import ListNotations.
Local Open Scope nat_scope.

(** Transition [k]: at time [t], person [p] goes to state [x]. *)
Definition trans (times persons news : list nat) (k t p x : nat) : Prop :=
  at_ times k t /\ at_ persons k p /\ at_ news k x.

(** Transition [k] is the latest of person [p] up to time [t]; of several at the same
    time, it is the last one listed. *)
Definition latest (times persons news : list nat) (p t k x : nat) : Prop :=
  exists i, trans times persons news k i p x /\ i <= t /\
    forall k' i' x', trans times persons news k' i' p x' -> i' <= t -> i' < i \/ i' = i /\ k' <= k.

(** The state of person [p] at time [t]. *)
Definition state_at (times persons news initial : list nat) (p t x : nat) : Prop :=
  (exists k, latest times persons news p t k x) \/
  (forall k i x', trans times persons news k i p x' -> t < i) /\ at_ initial p x.

(** A size given, or one more than the greatest number. *)
Definition size (given : option nat) (l : list nat) (n : nat) : Prop :=
  match given with
  | Some m => n = m /\ l <> [] /\ forall x, In x l -> x < n
  | None => In (n - 1) l /\ 0 < n /\ forall x, In x l -> x < n
  end.

(** The transitions at time 0 agree with the initial states. *)
Definition starts_as (times persons news initial : list nat) : Prop :=
  forall k p x, trans times persons news k 0 p x -> at_ initial p x.

(** Person [p] of the diaries has a transition to [x] at time [t]: the first state, and
    every change of state. *)
Definition begins (rows : list (list nat)) (t p x : nat) : Prop :=
  diary rows p t x /\ (t = 0 \/ ~ diary rows p (t - 1) x).

(** The transitions, in any order, are those of the diaries. *)
Definition describes (rows : list (list nat)) (times persons news : list nat) : Prop :=
  length persons = length times /\ length news = length times /\
  forall t p x, (exists k, trans times persons news k t p x) <-> begins rows t p x.

(** Sorted by person, then by time. *)
Definition by_person (times persons : list nat) : Prop :=
  forall k k' p p', k < k' -> at_ persons k p -> at_ persons k' p' ->
    p < p' \/ p = p' /\ forall t t', at_ times k t -> at_ times k' t' -> t <= t'.
Definition by_person_strictly (times persons : list nat) : Prop :=
  forall k k' p p', k < k' -> at_ persons k p -> at_ persons k' p' ->
    p < p' \/ p = p' /\ forall t t', at_ times k t -> at_ times k' t' -> t < t'.

(** The first state of every diary. *)
Definition first_states (rows : list (list nat)) (initial : list nat) : Prop :=
  length initial = length rows /\ forall p x, at_ initial p x -> diary rows p 0 x.

(** [q] is [part / whole], not a number without [whole]. *)
Definition share (part whole : Q) (q : option Q) : Prop :=
  (0 < whole -> exists v, q = Some v /\ v == part / whole)%Q /\ (whole == 0 -> q = None)%Q.

(** The matrix that stands at time [t] when the first is replaced by the last. *)
Definition taken (last : bool) (n t : nat) : nat :=
  match last, t with true, O => n - 1 | _, _ => t end.

(** Line [k] is the first of its person, or goes to another state than the line of the
    person before it. *)
Definition real (persons news : list nat) (k : nat) : Prop :=
  exists p x, at_ persons k p /\ at_ news k x /\
    ((forall k', k' < k -> ~ at_ persons k' p) \/
     exists k' x', k' < k /\ at_ persons k' p /\ at_ news k' x' /\ x' <> x /\
       forall j, k' < j -> j < k -> ~ at_ persons j p).

(** ** Tests on one diary of [n] steps *)

(** It leaves state [a] at time [t]; every diary begins anew at time 0. *)
Definition leaves (n t a : nat) (r : list nat) : bool :=
  (is_at (before n t) a r && ((t =? 0) || negb (is_at t a r)))%bool.

(** A stay in state [s] begins at time [t]. *)
Definition stay_begins (t s : nat) (r : list nat) : bool :=
  (is_at t s r && ((t =? 0) || negb (is_at (t - 1) s r)))%bool.

(** The end of that stay is known: it comes before the end of the day, or the day
    begins in the same state. *)
Definition stay_known (n t s : nat) (r : list nat) : bool :=
  ((t + run_length s (skipn t r) <? n) || is_at 0 s r)%bool.

(** Its length, going on at the start of the day, at most the whole day. *)
Definition stay_length (n t s : nat) (r : list nat) : nat :=
  Nat.min n (run_length s (skipn t r ++ r)).

(** The states of the lines at time 0, in order. *)
Definition at_start (times news : list nat) : list nat :=
  map snd (filter (fun l => fst l =? 0) (combine times news)).

(** Number of persons that go from [a] to [b] between two columns of states, and number
    of persons in [a]. *)
Definition pairs (old new : list nat) (a b : nat) : Q :=
  inject_Z (Z.of_nat (length (filter (fun xy => (fst xy =? a) && (snd xy =? b))%bool (combine old new)))).
Definition seen (old : list nat) (a : nat) : Q := inject_Z (Z.of_nat (length (filter (fun x => x =? a) old))).

(** Boolean selection of an array. *)
Definition kept {A} (mask : list bool) (l : list A) : list A := map snd (filter fst (combine mask l)).

(** The initial states, or the states at time 0. *)
Definition start_states (initial : option (list nat)) (times news : list nat) : list nat :=
  match initial with Some l => l | None => at_start times news end.

(** The columns hold the states of the persons. *)
Definition cols_states (times persons news initial : list nat) (n m : nat) (cols : list (list nat)) : Prop :=
  length cols = n /\ full m cols /\
  forall t c p x, at_ cols t c -> (at_ c p x <-> p < m /\ state_at times persons news initial p t x).

(** A row of probabilities, or of nans. *)
Definition law (row : list (option Q)) : Prop :=
  (exists pdf, row = map Some pdf /\ is_pdf pdf) \/ (forall q, In q row -> q = None).

(** Number of persons in state [s], among those of [row]. *)
Definition number_in (s : nat) (row : list nat) : Q := inject_Z (Z.of_nat (length (filter (Nat.eqb s) row))).
