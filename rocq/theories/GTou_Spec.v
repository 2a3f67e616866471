(** * Specification side for the German time of use survey. *)

From Coq Require Import String List ZArith QArith Bool Arith.
From Verif Require Import SpecBase Parse_Spec.
Import ListNotations.

(** The entries of [l] selected by a mask, in order. *)
Definition selected {A} (mask : list bool) (l : list A) : list A := map snd (filter fst (combine mask l)).

(** A table with [n] rows of [w] entries. *)
Definition sized {A} (n w : nat) (t : list (list A)) : Prop := length t = n /\ forall r, In r t -> length r = w.

(** The value of the first pair with the given code. *)
Fixpoint meaning {V} (d : list (Z * V)) (c : Z) : option V :=
  match d with [] => None | (k, v) :: t => if Z.eqb c k then Some v else meaning t c end.

(** What a person with activity code [c] is said to do: somebody who is not at home
    is away, and code 0 also stands for that. *)
Definition activity (d : list (Z * string)) (home : bool) (c : Z) : option string :=
  if negb home || Z.eqb c 0 then Some "away"%string else meaning d c.

(** [x] is the name shown for activity [a]: a dash is shown as "other". *)
Definition shown (a x : string) : Prop := (a <> "-" -> x = a)%string /\ (a = "-" -> x = "other")%string.

(** ** Travels *)

(** The codes of travels. *)
Definition travel_code (c : Z) : Prop := (900 <= c)%Z /\ c <> 997%Z /\ c <> 998%Z /\ c <> 999%Z.

(** Somebody travels at time [i], by the main or the secondary activity. *)
Definition travelling (ps ss : list Z) (i : nat) : Prop :=
  exists p s, at_ ps i p /\ at_ ss i s /\ (travel_code p \/ travel_code s).

(** The codes of work and school, and of the ways to them. *)
Definition work_code (c : Z) : Prop := (200 <= c < 400)%Z \/ (900 <= c <= 940)%Z.

(** ** Households *)

(** Sum of the entries at time [i] of the rows [p] selected by [f]. *)
Definition sum_over (f : nat -> bool) (t : list (list Z)) (i : nat) : Z :=
  total_Z (map (fun p => nth i (nth p t []) 0%Z) (filter f (seq 0 (length t)))).

(** The members: diaries of household [h] on day [d]. *)
Definition member (households days : list Z) (h d : Z) (p : nat) : bool :=
  match nth_error households p, nth_error days p with
  | Some h', Some d' => Z.eqb h' h && Z.eqb d' d
  | _, _ => false
  end.

(** Number of diaries satisfying a test. *)
Definition how_many (n : nat) (f : nat -> bool) : Z := Z.of_nat (length (filter f (seq 0 n))).

Definition q_of (n : nat) : Q := inject_Z (Z.of_nat n).

(** Number of diaries whose state at time [i] satisfies a test. *)
Definition persons_at {A} (f : A -> bool) (t : list (list A)) (i : nat) : nat :=
  length (filter (fun r => match nth_error r i with Some x => f x | None => false end) t).

(** ** Occupancy *)

(** A rating that no rating of the table [t] is below. *)
Definition least_rating (d : list (Z * Z)) (t : list (list Z)) (c : Z) : Prop :=
  exists v, meaning d c = Some v /\ forall p i c' v', diary t p i c' -> meaning d c' = Some v' -> (v <= v')%Z.

(** ** Counting *)

(** Exactly [k] of the numbers below [n] satisfy [P]. *)
Definition counts (n : nat) (P : nat -> Prop) (k : Z) : Prop :=
  exists l, NoDup l /\ Z.of_nat (length l) = k /\ forall p, In p l <-> (p < n)%nat /\ P p.

(** Diary [p] belongs to household [h] on day [d]. *)
Definition belongs (households days : list Z) (h d : Z) (p : nat) : Prop := at_ households p h /\ at_ days p d.

(** The pairs (day, household) of the diaries, each once, in increasing order. *)
Definition lists_households (households days : list Z) (keys : list (Z * Z)) : Prop :=
  (forall k k' a b, (k < k')%nat -> at_ keys k a -> at_ keys k' b -> (fst a < fst b)%Z \/ fst a = fst b /\ (snd a < snd b)%Z) /\
  (forall d h, In (d, h) keys <-> exists p, at_ days p d /\ at_ households p h).

(** Both codes stand for something else than "not active". *)
Definition active_codes (d : list (Z * string)) (c c' : Z) : Prop :=
  exists a b, meaning d c = Some a /\ meaning d c' = Some b /\ a <> "not active"%string /\ b <> "not active"%string.

(** The next time, cyclically. *)
Definition next (w i : nat) : nat := if Nat.eqb (S i) w then 0 else S i.

(** Household [h] on day [d] starts [k] times an activity satisfying [P]: the pairs
    (time, diary) at which a member changes to such an activity, cyclically. *)
Definition starts_on (w : nat) (rows : list (list string)) (households days : list Z) (P : string -> Prop) (h d : Z) (k : nat) : Prop :=
  exists ls, NoDup ls /\ length ls = k /\
    forall i p, In (i, p) ls <-> belongs households days h d p /\ exists new old, changes w rows i p new old /\ P new.

(** [l] lists without repetition the households and days satisfying [P]. *)
Definition household_list (P : Z -> Z -> Prop) (l : list (Z * Z)) : Prop := NoDup l /\ forall h d, In (h, d) l <-> P h d.
