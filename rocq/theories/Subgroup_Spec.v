(** * Specification for the subgroup helpers. *)

From Coq Require Import String Ascii List ZArith NArith.
From Verif Require Import Prelude Time_Model Subgroup_Model.
Import ListNotations.
Local Open Scope string_scope.

(** Keys are unique. *)
Definition is_dict (d : subgroup) : Prop := NoDup (map fst d).

Definition has (d : subgroup) (k : string) (v : value) : Prop := In (k, v) d.
Definition lacks (d : subgroup) (k : string) : Prop := forall v, ~ In (k, v) d.
Definition agree (a b : subgroup) (k : string) : Prop := forall v, In (k, v) a <-> In (k, v) b.

(** ** Time *)

(** [w] is the number of the day of week of the instant [t], Monday being 1. *)
Definition day_number (t w : Z) : Prop := (1 <= w <= 7)%Z /\ exists weeks, (t / us_per_day = 7 * weeks + (w - 1))%Z.

Inductive day_types : Type := NoDays | WeekEndsDays | WeekSatSun | SevenDays.

(** The flags that select the kind of day. *)
Definition flags (k : day_types) : bool * bool * bool :=
  match k with NoDays => (false, false, false) | WeekEndsDays => (true, false, false) | WeekSatSun => (false, true, false) | SevenDays => (false, false, true) end.

Inductive day_value (t : Z) : day_types -> value -> Prop :=
| dv_week : forall w, day_number t w -> (w <= 5)%Z -> day_value t WeekEndsDays (VInts [1; 2; 3; 4; 5]%Z)
| dv_end : forall w, day_number t w -> (6 <= w)%Z -> day_value t WeekEndsDays (VInts [6; 7]%Z)
| dv_sat_week : forall w, day_number t w -> (w <= 5)%Z -> day_value t WeekSatSun (VInts [1; 2; 3; 4; 5]%Z)
| dv_sat : forall w, day_number t w -> (6 <= w)%Z -> day_value t WeekSatSun (VInt w)
| dv_day : forall w, day_number t w -> day_value t SevenDays (VInt w).

Inductive quarter_of : Z -> Z -> Prop :=
| winter : forall m, In m [1; 2; 3]%Z -> quarter_of m 1
| spring : forall m, In m [4; 5; 6]%Z -> quarter_of m 2
| summer : forall m, In m [7; 8; 9]%Z -> quarter_of m 3
| autumn : forall m, In m [10; 11; 12]%Z -> quarter_of m 4.

(** ** Persons *)

(** The number of residents stated by a household subgroup. *)
Definition states_residents (hh : subgroup) (n : nat) : Prop := has hh "n_residents" (VInt (Z.of_nat n)) \/
  lacks hh "n_residents" /\ (has hh "household_type" (VInt 1) /\ n = 1 \/ has hh "household_type" (VInt 2) /\ n = 2).

(** Household types that contradict the number of residents. *)
Definition type_fits (hh : subgroup) (n : nat) : Prop :=
  (has hh "household_type" (VInt 1) -> n = 1) /\ (has hh "household_type" (VInt 2) -> n = 1 \/ n = 2) /\
  (has hh "household_type" (VInt 3) -> 1 <= n) /\ (has hh "household_type" (VInt 4) -> 1 <= n).

(** What a person inherits. *)
Definition person_of (hh p : subgroup) : Prop :=
  is_dict p /\ lacks p "n_residents" /\ lacks p "household_type" /\
  (forall k, ~ In k ["n_residents"; "household_type"; "household_position"; "age"; "hh_mean_age"] -> agree p hh k) /\
  (forall v, has p "age" v -> has hh "age" v \/ lacks hh "age" /\ has hh "hh_mean_age" v) /\
  (forall v, has hh "age" v -> has p "age" v) /\ (forall v, has p "hh_mean_age" v -> has hh "hh_mean_age" v) /\
  (forall v, has p "household_position" v -> has hh "household_position" v \/ In v [VInt 1; VInt 2; VInt 3]).

(** ** Names *)

(** A key made of words joined by single underscores. *)
Definition plain_key (k : string) : Prop := exists words, words <> [] /\
  (forall w, In w words -> w <> "" /\ ~ In "_"%char (list_ascii_of_string w)) /\ k = String.concat "_" words.

(** The numbers of a value. *)
Definition numbers (v : value) : list Z := match v with VInt z => [z] | VInts l => l end.

Definition plain (d : subgroup) : Prop := is_dict d /\ forall k v, In (k, v) d -> plain_key k /\ numbers v <> [].

(** The same keys with the same numbers. *)
Definition same_numbers (a b : subgroup) : Prop := forall k ns, (exists v, has a k v /\ numbers v = ns) <-> (exists v, has b k v /\ numbers v = ns).

(** ** Order *)
Inductive str_lt : string -> string -> Prop :=
| str_end : forall c s, str_lt "" (String c s)
| str_head : forall c d s t, (N_of_ascii c < N_of_ascii d)%N -> str_lt (String c s) (String d t)
| str_tail : forall c s t, str_lt s t -> str_lt (String c s) (String c t).

Inductive ints_lt : list Z -> list Z -> Prop :=
| ints_end : forall y l, ints_lt [] (y :: l)
| ints_head : forall x y l m, (x < y)%Z -> ints_lt (x :: l) (y :: m)
| ints_tail : forall x l m, ints_lt l m -> ints_lt (x :: l) (x :: m).

Inductive value_lt : value -> value -> Prop :=
| vlt_int : forall x y, (x < y)%Z -> value_lt (VInt x) (VInt y)
| vlt_ints : forall l m, ints_lt l m -> value_lt (VInts l) (VInts m).

Definition same_kind (v w : value) : Prop :=
  match v, w with VInt _, VInt _ | VInts _, VInts _ => True | _, _ => False end.

Definition comparable (a b : subgroup) : Prop := forall k v w, has a k v -> has b k w -> same_kind v w.

(** Fewer keys; else, at the first key where they differ: present in one only,
    or the smaller value. *)
Definition ahead (a b : subgroup) : Prop :=
  length a < length b \/ length a = length b /\ exists k, (forall k', str_lt k' k -> agree a b k') /\
    ((exists v, has a k v) /\ lacks b k \/ exists v w, has a k v /\ has b k w /\ value_lt v w).
