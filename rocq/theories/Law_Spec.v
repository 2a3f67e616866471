(** * Specification vocabulary for the probabilities of whole runs.

    A run reads finitely many independent uniform numbers of [0,1).  An event on
    [d] of them has probability [p] when the points of the unit cube where it holds
    are the disjoint union of finitely many boxes of total volume [p].
    [C164_probability_unique] shows that there is at most one such [p]. *)

From Coq Require Import List ZArith QArith Bool Arith.
From Verif Require Import SpecBase Activity_Spec.
Import ListNotations.

(** A box: one interval [lo, hi) for each coordinate. *)
Definition box : Type := list (Q * Q).

Definition box_in_cube (d : nat) (b : box) : Prop :=
  length b = d /\ forall i lo hi, at_ b i (lo, hi) -> 0 <= lo /\ lo <= hi /\ hi <= 1.

Definition inside (b : box) (us : list Q) : bool :=
  forallb (fun p => Qle_bool (fst (fst p)) (snd p) && negb (Qle_bool (snd (fst p)) (snd p))) (combine b us).

Definition volume (b : box) : Q := fold_right (fun i v => (snd i - fst i) * v) 1 b.

(** The points of the unit cube. *)
Definition draws (d : nat) (us : list Q) : Prop := length us = d /\ Forall (fun u => 0 <= u /\ u < 1) us.

(** In how many of the boxes a point lies. *)
Definition times (boxes : list box) (us : list Q) : nat := length (filter (fun b => inside b us) boxes).

Definition has_probability (d : nat) (P : list Q -> Prop) (p : Q) : Prop :=
  exists boxes, (forall b, In b boxes -> box_in_cube d b) /\
    (forall us, draws d us -> (times boxes us <= 1)%nat /\ (P us <-> times boxes us = 1%nat)) /\
    total (map volume boxes) == p.

(** Entry [j] of a list of numbers, zero outside. *)
Definition entry (l : list Q) (j : nat) : Q := nth j l 0.

(** Entry [j] of the product of a row vector and a matrix. *)
Definition row_times (v : list Q) (m : list (list Q)) (j : nat) : Q :=
  total (map (fun p => fst p * entry (snd p) j) (combine v m)).

(** The distribution after [n] steps with the matrices used cyclically from number 1
    (the second) on. *)
Fixpoint distribution (tables : list (list (list Q))) (pdf : list Q) (n : nat) : list Q :=
  match n with
  | O => pdf
  | S k => map (row_times (distribution tables pdf k) (nth (S k mod length tables) tables [])) (seq 0 (length pdf))
  end.

(** Probability of a path that leaves [s] at step number [t]. *)
Fixpoint path_probability (tables : list (list (list Q))) (t s : nat) (path : list nat) : Q :=
  match path with
  | [] => 1
  | s' :: rest =>
      entry (nth s (nth (t mod length tables) tables []) []) s' * path_probability tables (S t) s' rest
  end.

Fixpoint product (l : list Q) : Q :=
  match l with
  | [] => 1
  | x :: t => x * product t
  end.

(** Pascal's triangle. *)
Fixpoint choose (n k : nat) : Z :=
  match n, k with
  | _, O => 1
  | O, S _ => 0
  | S n, S k => (choose n k + choose n (S k))%Z
  end.

Fixpoint power (x : Q) (n : nat) : Q :=
  match n with
  | O => 1
  | S k => x * power x k
  end.

Definition binomial (n k : nat) (p : Q) : Q := inject_Z (choose n k) * power p k * power (1 - p) (n - k).

(** Consecutive pieces of length [d] of a list: piece number [i]. *)
Definition piece (d i : nat) (us : list Q) : list Q := firstn d (skipn (d * i) us).

(** ** Sparse matrices, given by the list of their transitions (target, probability)
    from each state at each time. *)

Definition stored (rows : Z -> Z -> list (Z * Q)) (t x y : Z) : Q :=
  total (map snd (filter (fun e => (fst e =? y)%Z) (rows t x))).

(** Probability of going from [x] at time [t] to [y] in [n] steps through [states]. *)
Fixpoint sparse_law (rows : Z -> Z -> list (Z * Q)) (states : list Z) (n : nat) (t x y : Z) : Q :=
  match n with
  | O => if (x =? y)%Z then 1 else 0
  | S k => total (map (fun s => stored rows t x s * sparse_law rows states k (t + 1) s y) states)
  end.

(** Probability of a pattern of outcomes of independent trials. *)
Definition pattern (bs : list bool) (ps : list Q) : Q :=
  product (map (fun bp => if fst bp : bool then snd bp else 1 - snd bp) (combine bs ps)).

(** Entry (x, y) of the [n]-th power of a matrix. *)
Fixpoint power_entry (m : list (list Q)) (n x y : nat) : Q :=
  match n with
  | O => if Nat.eqb x y then 1 else 0
  | S k => total (map (fun s => entry (nth x m []) s * power_entry m k s y) (seq 0 (length m)))
  end.

(** ** Semi-Markov chains: pairs of a state and the number of steps left in it. *)

(** Probability of [e] steps when going from [x] to [x'] at table [t]. *)
Definition dur_entry (d : dur_tables) (t x x' e : nat) : Q :=
  match d with
  | ByNew l => entry (nth x' (nth t l []) []) e
  | ByOldNew l => entry (nth x' (nth x (nth t l []) []) []) e
  end.

(** A timer shows one less than the drawn duration. *)
Definition by_timer (f : nat -> Q) (left : Z) : Q := if (left + 1 <? 0)%Z then 0 else f (Z.to_nat (left + 1)).

(** Probability of the first pair. *)
Definition semi_begin (pdf : list Q) (sdurs : list (list Q)) (b : nat * Z) : Q :=
  entry pdf (fst b) * by_timer (entry (nth (fst b) sdurs [])) (snd b).

(** Probability of going from pair [a] to pair [b] in step [t]: a running timer
    counts down. *)
Definition semi_move (tables : list (list (list Q))) (d : dur_tables) (t : nat) (a b : nat * Z) : Q :=
  if (snd a <? 1)%Z
  then entry (nth (fst a) (nth (t mod length tables) tables []) []) (fst b) *
       by_timer (dur_entry d (t mod dur_length d) (fst a) (fst b)) (snd b)
  else if ((fst b =? fst a)%nat && (snd b =? snd a - 1)%Z)%bool then 1 else 0.

(** Probability of a sequence of pairs of all the households, independently of each
    other. *)
Fixpoint semi_path (tables : list (list (list Q))) (d : dur_tables) (t : nat) (c : list (nat * Z)) (rest : list (list (nat * Z))) : Q :=
  match rest with
  | [] => 1
  | c' :: r => product (map (fun ab => semi_move tables d t (fst ab) (snd ab)) (combine c c')) * semi_path tables d (S t) c' r
  end.

(** The pairs of one household during an episode of state [x] and duration [e], after
    the first one. *)
Definition episode_tail (x e : nat) : list (nat * Z) := map (fun k => (x, Z.of_nat e - 2 - Z.of_nat k)%Z) (seq 0 (Nat.max 1 e - 1)).
Definition episode_pairs (x e : nat) : list (nat * Z) := (x, Z.of_nat e - 1)%Z :: episode_tail x e.

(** Probability of the episodes after one in state [x], the next beginning with
    step [t]. *)
Fixpoint episodes_probability (tables : list (list (list Q))) (d : dur_tables) (t x : nat) (episodes : list (nat * nat)) : Q :=
  match episodes with
  | [] => 1
  | (x', e) :: r =>
      entry (nth x (nth (t mod length tables) tables []) []) x' * dur_entry d (t mod dur_length d) x x' e *
      episodes_probability tables d (t + Nat.max 1 e) x' r
  end.
