(** * Model of the subgroup helpers.

    Source: demod/utils/subgroup_handling.py (whole file).

    A subgroup is a dictionary from names to integers or lists of integers;
    other kinds of values (strings, floats) are not represented.  Functions that
    change their argument return the changed dictionary. *)

From Coq Require Import String Ascii List ZArith Bool Arith DecimalString DecimalZ.
From Verif Require Import Prelude Time_Model.
Import ListNotations.
Local Open Scope string_scope.

Inductive value : Type := VInt (z : Z) | VInts (l : list Z).

Notation subgroup := (list (string * value)).

Definition get (d : subgroup) (k : string) : option value := dget String.eqb d k.
Definition set_key (d : subgroup) (k : string) (v : value) : subgroup := dset String.eqb d k v.
Definition pop (d : subgroup) (k : string) : subgroup := ddel String.eqb d k.

(** [d[k]]. *)
Definition subscript (d : subgroup) (k : string) : result value :=
  match get d k with Some v => Ok v | None => Err KeyError end.

(** [==] on values. *)
Definition value_eqb (a b : value) : bool :=
  match a, b with
  | VInt x, VInt y => Z.eqb x y
  | VInts l, VInts m => if list_eq_dec Z.eq_dec l m then true else false
  | _, _ => false
  end.

(** ** Ordering (lines 24-53) *)

(** [>] between lists of integers. *)
Fixpoint ints_gtb (a b : list Z) : bool :=
  match a, b with
  | [], _ => false
  | _ :: _, [] => true
  | x :: a', y :: b' => if Z.eqb x y then ints_gtb a' b' else Z.gtb x y
  end.

(** [>] between values; a list and a number cannot be compared. *)
Definition value_gtb (a b : value) : result bool :=
  match a, b with
  | VInt x, VInt y => Ok (Z.gtb x y)
  | VInts l, VInts m => Ok (ints_gtb l m)
  | _, _ => Err TypeError
  end.

(** [sorted] by a key. *)
Fixpoint insert_by {A : Type} (key : A -> string) (x : A) (l : list A) : list A :=
  match l with
  | [] => [x]
  | y :: l' => if String.leb (key x) (key y) then x :: l else y :: insert_by key x l'
  end.

Definition sort_by {A : Type} (key : A -> string) (l : list A) : list A := fold_right (insert_by key) [] l.

(** The loop of lines 42-53. *)
Fixpoint gt_keys (keys : list string) (self other : subgroup) : result bool :=
  match keys with
  | [] => Ok false
  | k :: keys' =>
      match get other k with
      | None => Ok true
      | Some o =>
          match get self k with
          | None => Ok false
          | Some s =>
              bind (value_gtb o s) (fun greater =>
              if greater then Ok true
              else bind (value_gtb s o) (fun smaller =>
                   if smaller then Ok false else gt_keys keys' self other))
          end
      end
  end.

(** [Subgroup.__gt__] (lines 24-53); the argument is a dictionary. *)
Definition subgroup_gt (self other : subgroup) : result bool :=
  if Nat.ltb (length self) (length other) then Ok true
  else if Nat.ltb (length other) (length self) then Ok false
  else gt_keys (sort_by (fun k => k) (map fst self ++ map fst other)%list) self other.

(** ** Names (lines 59-98) *)

(** [sort_subgroup] (lines 59-72). *)
Definition sort_subgroup (d : subgroup) : subgroup := sort_by fst d.

(** [str] of an integer. *)
Definition str_Z (z : Z) : string := NilZero.string_of_int (Z.to_int z).

(** [str] of a value inside [subgroup_string] (lines 91-95). *)
Definition value_string (v : value) : string :=
  match v with
  | VInt z => str_Z z
  | VInts l => String.concat "," (map str_Z l)
  end.

Definition item_string (kv : string * value) : string := fst kv ++ "_" ++ value_string (snd kv).

(** [subgroup_string] (lines 75-98). *)
Definition subgroup_string (d : subgroup) : string := String.concat "__" (map item_string (sort_subgroup d)).

(** ** Time attributes *)

(** [remove_time_attributues] (lines 101-118). *)
Definition remove_time_attributues (d : subgroup) : subgroup :=
  let d1 := match get d "weekday" with Some _ => pop d "weekday" | None => d end in
  match get d1 "quarter" with Some _ => pop d1 "quarter" | None => d1 end.

Definition week : value := VInts [1; 2; 3; 4; 5]%Z.
Definition week_end : value := VInts [6; 7]%Z.

(** [check_weekend_day_format] (lines 121-138). *)
Definition check_weekend_day_format (d : subgroup) : result unit :=
  bind (subscript d "weekday") (fun v => if value_eqb v week || value_eqb v week_end then Ok tt else Err ValueError).

(** [is_weekend] (lines 141-150) and [is_weekday] (lines 153-162). *)
Definition is_weekend (d : subgroup) : result bool := bind (subscript d "weekday") (fun v => Ok (value_eqb v week_end)).
Definition is_weekday (d : subgroup) : result bool := bind (subscript d "weekday") (fun v => Ok (value_eqb v week)).

(** [datetime.isoweekday()]: Monday is 1. *)
Definition isoweekday (t : Z) : Z := (weekday_at t + 1)%Z.

(** [add_time] (lines 252-300); the flags come in the order of the signature. *)
Definition add_time (d : subgroup) (t : Z) (use_week_ends_days use_week_sat_sun use_7days use_quarters : bool) : result subgroup :=
  if (1 <? Nat.b2n use_7days + Nat.b2n use_week_ends_days + Nat.b2n use_week_sat_sun)%nat then Err ValueError
  else
    let d1 :=
      if use_week_ends_days then set_key d "weekday" (if (isoweekday t <=? 5)%Z then week else week_end)
      else if use_week_sat_sun then set_key d "weekday" (if (isoweekday t <=? 5)%Z then week else VInt (isoweekday t))
      else if use_7days then set_key d "weekday" (VInt (isoweekday t))
      else pop d "weekday" in
    Ok (if use_quarters then set_key d1 "quarter" (VInt ((month (date_at t) - 1) / 3 + 1)) else pop d1 "quarter").

(** ** Persons (lines 165-249) *)

(** [v == n] for an optional value: [None] and lists differ from numbers. *)
Definition is_int (v : option value) (n : Z) : bool :=
  match v with Some (VInt z) => Z.eqb z n | _ => false end.

(** [[d for _ in range(v - k)]]: no number is a TypeError. *)
Definition copies (d : subgroup) (v : option value) (k : Z) : result (list subgroup) :=
  match v with
  | Some (VInt z) => Ok (repeat d (Z.to_nat (z - k)))
  | _ => Err TypeError
  end.

(** [subgroup_households_to_persons] for one household (lines 196-249).  The
    repeated persons are the same object in Python. *)
Definition household_to_persons (hh : subgroup) : result (list subgroup) :=
  let n_residents := get hh "n_residents" in
  let hh1 := pop hh "n_residents" in
  let hh_type := get hh1 "household_type" in
  let d := pop hh1 "household_type" in
  if is_int hh_type 1 || is_int n_residents 1 then
    match get d "age", get d "hh_mean_age" with
    | None, Some a => Ok [set_key (pop d "hh_mean_age") "age" a]
    | _, _ => Ok [d]
    end
  else if is_int hh_type 2 then
    Ok [set_key d "household_position" (VInt 1); set_key d "household_position" (VInt 2)]
  else if is_int hh_type 3 then
    bind (copies (set_key d "household_position" (VInt 3)) n_residents 1) (fun kids =>
    Ok (set_key d "household_position" (VInt 1) :: kids))
  else if is_int hh_type 4 then
    bind (copies (set_key d "household_position" (VInt 3)) n_residents 2) (fun kids =>
    Ok (set_key d "household_position" (VInt 1) :: set_key d "household_position" (VInt 2) :: kids))
  else copies d n_residents 0.

(** [subgroup_households_to_persons] for a list (lines 193-194); lists of lists
    are not represented. *)
Definition subgroup_households_to_persons (hhs : list subgroup) : result (list (list subgroup)) := mapM household_to_persons hhs.
