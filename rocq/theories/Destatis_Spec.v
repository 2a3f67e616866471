(** * Vocabulary for the statements about the statistics of the German office. *)

From Coq Require Import String List ZArith QArith Bool Arith Ascii.
From Verif Require Import Prelude SpecBase Subgroup_Model Appliance_Spec OwnDict_Spec Destatis_Model.
Import ListNotations.
Open Scope string_scope.

(** ** Headings of the sheet *)

(** The subgroup has this number under this attribute. *)
Definition has (g : subgroup) (key : string) (z : Z) : Prop := dget String.eqb g key = Some (VInt z).

Definition earns (g : subgroup) (low : Z) (high : option Z) : Prop :=
  exists r, has g "household_revenue" r /\ (low <= r)%Z /\ match high with Some h => (r < h)%Z | None => True end.
Definition at_least (g : subgroup) (n : Z) : Prop := exists k, has g "n_residents" k /\ (n <= k)%Z.

(** Headings of the columns of appliances_penetration.ods, in the numbering of
    the sheet.  The last revenue column (5000 - 18000) is taken as open. *)
Definition heading (column : Z) (g : subgroup) : Prop :=
  match column with
  | 2 => has g "year" 2008
  | 3 => has g "year" 2013
  | 4 => has g "year" 2018
  | 13 => has g "n_residents" 1
  | 14 => has g "n_residents" 2
  | 15 => has g "n_residents" 3
  | 16 => has g "n_residents" 4
  | 17 => at_least g 5
  | 27 => earns g 0 (Some 900)
  | 28 => earns g 900 (Some 1300)
  | 29 => earns g 1300 (Some 1500)
  | 30 => earns g 1500 (Some 2000)
  | 31 => earns g 2000 (Some 2600)
  | 32 => earns g 2600 (Some 3600)
  | 33 => earns g 3600 (Some 5000)
  | 34 => earns g 5000 None
  | 47 => has g "household_type" 1
  | 48 => has g "household_type" 1 /\ has g "gender" 1
  | 49 => has g "household_type" 1 /\ has g "gender" 2
  | 52 => has g "household_type" 2
  | 58 => has g "household_type" 3 /\ has g "n_residents" 2
  | 59 => has g "household_type" 3 /\ at_least g 3
  | 61 => has g "household_type" 4 /\ has g "n_residents" 3
  | 62 => has g "household_type" 4 /\ has g "n_residents" 4
  | 63 => has g "household_type" 4 /\ at_least g 5
  | _ => False
  end%Z.

(** How much a heading says: year, revenue, size, family, person living alone
    of a known gender. *)
Definition precision (column : Z) : nat :=
  if (column <=? 4)%Z then 0 else if (column <=? 17)%Z then 2 else if (column <=? 34)%Z then 1
  else if (column =? 48)%Z || (column =? 49)%Z then 4 else 3.

(** The best heading of a subgroup. *)
Definition best_heading (g : subgroup) (column : Z) : Prop :=
  heading column g /\ forall c, heading c g -> (precision c <= precision column)%nat.

(** Subgroups with up to five residents, a positive revenue and a gender coded
    1 or 2, each attribute being optional; lone parents have at most three
    children. *)
Definition plain (g : subgroup) : Prop :=
  (forall v, dget String.eqb g "n_residents" = Some v -> exists n, v = VInt n /\ (1 <= n <= 5)%Z) /\
  (forall v, dget String.eqb g "household_revenue" = Some v -> exists r, v = VInt r /\ (1 <= r)%Z) /\
  (forall v, dget String.eqb g "gender" = Some v -> v = VInt 1 \/ v = VInt 2) /\
  ~ (has g "household_type" 3 /\ has g "n_residents" 5).

(** ** Rows of the sheet *)

(** What a cell says, as a fraction. *)
Definition says (c : cell) (x : option Q) : Prop :=
  match c with
  | Num q => exists y, x = Some y /\ y * 100 == q
  | Dash | Blank => x = None
  | Other _ => False
  end%Q.

Definition without_spaces (s : string) : string :=
  string_of_list_ascii (filter (fun c => negb (Ascii.eqb c " ")) (list_ascii_of_string s)).

(** Row [i] of the sheet is about [name]; column [k] says that households own
    [n] of them on average and that a share [p] owns at least one. *)
Definition listed (sh : sheet) (k i : nat) (name : string) (p n : option Q) : Prop :=
  (i < 56)%nat /\ exists raw cells c1 c2, at_ (sh_types sh) i (Some raw) /\ name = without_spaces raw /\
    at_ (sh_columns sh) k cells /\ at_ cells i c1 /\ says c1 n /\ at_ cells (i + 51) c2 /\ says c2 p.

(** Name of a type before row 56. *)
Definition named (sh : sheet) (i : nat) (name : string) : Prop :=
  (i < 56)%nat /\ exists raw, at_ (sh_types sh) i (Some raw) /\ name = without_spaces raw.

(** Types are distinct, and none is another one followed by a number. *)
Definition clear_names (sh : sheet) : Prop :=
  forall i j a b, named sh i a -> named sh j b ->
    (a = b -> i = j) /\ (forall k, (1 <= k)%nat -> a <> b ++ "_" ++ decimal k).

(** The probabilities of the copies of a type. *)
Definition ownership (p n : option Q) (l : list Q) : Prop :=
  (2 <= length l)%nat /\
  match p, n with
  | Some p, Some n =>
      (exists x, at_ l 0 x /\ x == p) /\ total l == n /\ Forall (fun x => 0 <= x <= 1) l /\
      forall i x y, (0 < i)%nat -> at_ l i x -> at_ l (S i) y -> x == 1
  | Some p, None => 0 <= p <= 1 /\ eqQ_list l [p; 0]
  | None, _ => eqQ_list l [0; 0]
  end%Q.

(** Statistics that can be true. *)
Definition sensible (p n : option Q) : Prop :=
  match p, n with
  | Some p, Some n => 0 <= p <= 1 /\ p <= n
  | Some p, None => 0 <= p <= 1
  | None, Some n => 0 <= n
  | None, None => True
  end%Q.

(** ** Published figures *)

(** Residents, household type and weight (percent or millions of households). *)
Record figure := Figure { f_residents : Z; f_type : option Z; f_weight : Q }.

Definition figures (name : string) : list figure * Z :=
  if String.eqb name "resident_number_2013" then
    ([Figure 1 None (4054 # 100); Figure 2 None (3443 # 100); Figure 3 None (1251 # 100); Figure 4 None (921 # 100); Figure 5 None (331 # 100)], 39933000%Z)
  else if String.eqb name "resident_number_2019" then
    ([Figure 1 None (423 # 10); Figure 2 None (332 # 10); Figure 3 None (119 # 10); Figure 4 None (91 # 10); Figure 5 None (35 # 10)], 41506000%Z)
  else
    ([Figure 1 (Some 1%Z) (17067 # 1000); Figure 2 (Some 2%Z) (11850 # 1000);
      Figure 2 (Some 3%Z) (1007 # 1000); Figure 3 (Some 3%Z) (408 # 1000); Figure 4 (Some 3%Z) (109 # 1000);
      Figure 3 (Some 4%Z) (2553 # 1000); Figure 4 (Some 4%Z) (2370 # 1000); Figure 5 (Some 4%Z) (801 # 1000)], 41506000%Z).
