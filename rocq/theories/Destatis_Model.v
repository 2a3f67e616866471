(** * Statistics of the German federal office (datasets/DESTATIS/loader.py).

    Population subgroups, the choice of the column of the appliance sheet, and
    the ownership dictionary read from it.  The sheet itself is an input; file
    access and download are not modelled. *)

From Coq Require Import String List ZArith QArith Bool Arith Ascii.
From Verif Require Import Prelude Subgroup_Model Appliance_Model.
Import ListNotations.
Open Scope string_scope.

(** ** Population *)

(** The tuple returned: subgroups, distribution, number of households. *)
Record population := Population { po_groups : list subgroup; po_pdf : list Q; po_number : Z }.

Definition residents (n : Z) : subgroup := [("n_residents", VInt n)].
Definition household (n t : Z) : subgroup := [("n_residents", VInt n); ("household_type", VInt t)].

(** DESTATIS/loader.py lines 45-57. *)
Definition residents_2013 : population :=
  Population (map residents [1; 2; 3; 4; 5]%Z)
    (map (fun x => x / 100)%Q [4054 # 100; 3443 # 100; 1251 # 100; 921 # 100; 331 # 100]%Q) 39933000.

(** DESTATIS/loader.py lines 58-69. *)
Definition residents_2019 : population :=
  Population (map residents [1; 2; 3; 4; 5]%Z)
    (map (fun x => x / 100)%Q [423 # 10; 332 # 10; 119 # 10; 91 # 10; 35 # 10]%Q) 41506000.

(** DESTATIS/loader.py lines 72-116: millions of households of each type,
    divided by their sum. *)
Definition hh_numbers : list Q :=
  [17067 # 1000; 11850 # 1000; 1007 # 1000; 408 # 1000; 109 # 1000; 2553 # 1000; 2370 # 1000; 801 # 1000]%Q.
Definition household_types_2019 : population :=
  Population [household 1 1; household 2 2; household 2 3; household 3 3; household 4 3; household 3 4; household 4 4; household 5 4]%Z
    (map (fun x => x / qsum hh_numbers)%Q hh_numbers) 41506000.

(** DESTATIS/loader.py lines 39-124 [_parse_population_subgroups]. *)
Definition parse_population (population_type : string) : result population :=
  if String.eqb population_type "resident_number" || String.eqb population_type "crest" then Ok residents_2019
  else if String.eqb population_type "resident_number_2013" then Ok residents_2013
  else if String.eqb population_type "resident_number_2019" then Ok residents_2019
  else if String.eqb population_type "household_types" then Ok household_types_2019
  else if String.eqb population_type "household_types_2019" then Ok household_types_2019
  else Err NotImplementedError.

(** ** Column of a subgroup *)

(** [if v:] for a keyword argument: [None], zero and the empty list are false. *)
Definition truthy (v : option value) : bool :=
  match v with
  | None => false
  | Some (VInt z) => negb (Z.eqb z 0)
  | Some (VInts l) => match l with [] => false | _ => true end
  end.

(** Comparing a list with a number is a TypeError. *)
Definition number_of (v : option value) : result Z :=
  match v with Some (VInt z) => Ok z | _ => Err TypeError end.

(** DESTATIS/loader.py lines 286-304. *)
Definition revenue_column (r : Z) : Z :=
  27 + (if r <? 900 then 0 else if r <? 1300 then 1 else if r <? 1500 then 2 else if r <? 2000 then 3
        else if r <? 2600 then 4 else if r <? 3600 then 5 else if r <? 5000 then 6 else 7)%Z.

(** DESTATIS/loader.py lines 198-323 [_get_column_appliance_subgroup] called
    with the items of the subgroup as keywords; keywords that are not used are
    accepted.  Revenues are integers here. *)
Definition get_column (d : subgroup) : result Z :=
  let hh_type := get d "household_type" in
  let n := get d "n_residents" in
  let gender := get d "gender" in
  let year := get d "year" in
  if is_int hh_type 1 then
    match gender with
    | None => Ok 47%Z
    | Some _ => if is_int gender 1 then Ok 48%Z else if is_int gender 2 then Ok 49%Z else Err ValueError
    end
  else if is_int hh_type 2 then Ok 52%Z
  else if is_int hh_type 3 && is_int n 2 then Ok 58%Z
  else if is_int hh_type 3 && is_int n 3 then Ok 59%Z
  else if is_int hh_type 3 && is_int n 4 then Ok 59%Z
  else if is_int hh_type 4 && is_int n 3 then Ok 61%Z
  else if is_int hh_type 4 && is_int n 4 then Ok 62%Z
  else if is_int hh_type 4 && is_int n 5 then Ok 63%Z
  else if truthy n then
    bind (number_of n) (fun k => if (0 <? k)%Z && (k <? 6)%Z then Ok (12 + k)%Z else Err AssertionError)
  else if truthy (get d "household_revenue") then
    bind (number_of (get d "household_revenue")) (fun r =>
    if (0 <=? r)%Z then Ok (revenue_column r) else Err AssertionError)
  else if truthy year then
    if is_int year 2008 then Ok 2%Z else if is_int year 2013 then Ok 3%Z else if is_int year 2018 then Ok 4%Z
    else Err ValueError
  else Err ValueError.

(** ** Ownership dictionary *)

(** A cell of the sheet: a number, the text "-", an empty cell, other text. *)
Inductive cell := Num (q : Q) | Dash | Blank | Other (s : string).

(** DESTATIS/loader.py lines 165-166: dashes become nan, other text cannot be
    converted; percentages become fractions. *)
Definition cell_value (c : cell) : result (option Q) :=
  match c with
  | Num q => Ok (Some (q / 100)%Q)
  | Dash | Blank => Ok None
  | Other _ => Err ValueError
  end.

(** The sheet: its first column (the types of the appliances, [None] for an
    empty cell) and all its columns. *)
Record sheet := Sheet { sh_types : list (option string); sh_columns : list (list cell) }.

(** [assign_ownership_from_prob1_and_number] (utils/appliances.py:190-211) for
    numpy floats: a nan read from the sheet is not the object [np.nan], so line
    190 does not replace it; comparisons with nan are false and [min(nan, 1.)]
    is nan. *)
Definition owned (prob number : option Q) : result (list (option Q)) :=
  match prob, number with
  | Some p, Some n => bind (assign_ownership p (Some n) "floor") (fun l => Ok (map Some l))
  | Some p, None => if Qltb p 0 || Qltb 1 p then Err ValueError else Ok [Some p; None]
  | None, Some n => if Qltb n 0 then Err ValueError else Ok [None; None]
  | None, None => Ok [None; None]
  end.

(** [str.replace(" ", "")]. *)
Fixpoint strip_spaces (s : string) : string :=
  match s with
  | EmptyString => EmptyString
  | String c t => if Ascii.eqb c " "%char then strip_spaces t else String c (strip_spaces t)
  end.

(** DESTATIS/loader.py lines 188-194: one entry per copy, nan as zero, then the
    entry of the first copy is renamed. *)
Definition or_zero (p : option Q) : Q := match p with Some q => q | None => 0%Q end.
Definition copy_key (name : string) (i : nat) : string := name ++ "_" ++ str_of_nat i.
Fixpoint store_copies (d : list (string * Q)) (name : string) (i : nat) (ps : list (option Q)) : list (string * Q) :=
  match ps with
  | [] => d
  | p :: t => store_copies (dset String.eqb d (copy_key name i) (or_zero p)) name (S i) t
  end.
Definition store (d : list (string * Q)) (name : string) (ps : list (option Q)) : result (list (string * Q)) :=
  let d1 := store_copies d name 1 ps in
  match dget String.eqb d1 (copy_key name 1) with
  | None => Err KeyError
  | Some p => Ok (dset String.eqb (ddel String.eqb d1 (copy_key name 1)) name p)
  end.

(** DESTATIS/loader.py lines 176-194: the loop over the rows, stopped at row
    51 + 5; the percentage of a row is 51 rows below its number. *)
Fixpoint ownership_rows (it : nat) (types : list (option string)) (column : list (option Q)) (d : list (string * Q)) :
  result (list (string * Q)) :=
  match types with
  | [] => Ok d
  | t :: rest =>
      if Nat.eqb it 56 then Ok d
      else match t with
           | None => ownership_rows (S it) rest column d
           | Some raw =>
               bind (vget column it) (fun number =>
               bind (vget column (it + 51)) (fun prob =>
               bind (owned prob number) (fun ps =>
               bind (store d (strip_spaces raw) ps) (fun d1 =>
               ownership_rows (S it) rest column d1))))
           end
  end.

(** DESTATIS/loader.py lines 126-196 [_parse_appliance_ownership_dict]. *)
Definition parse_ownership (sh : sheet) (g : subgroup) : result (list (string * Q)) :=
  bind (get_column (remove_time_attributues g)) (fun k =>
  bind (vget (sh_columns sh) (Z.to_nat k)) (fun cells =>
  bind (mapM cell_value cells) (fun column =>
  ownership_rows 0 (sh_types sh) column []))).
