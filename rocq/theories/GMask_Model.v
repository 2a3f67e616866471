(** * Model of the choice of diaries of the German survey.

    Source: demod/datasets/GermanTOU/parser.py, lines 56-59 and 66-245.  The three
    tables (households, persons, diaries) are lists of records with the columns
    that are read.  Their pandas index is the position of the row.  Codes are
    integers.  Lists given as arguments contain integers. *)

From Coq Require Import String List ZArith QArith Bool Arith.
From Verif Require Import Prelude Appliance_Model Parse_Model.
Import ListNotations.
Local Open Scope string_scope.

(** id_hhx, ha1x, anz_erw, hhtyp, hd15x. *)
Record household : Type := mkHh { h_id : Z; h_size : Z; h_work : Z; h_type : Z; h_revenue : Z }.
(** id_persx, id_hhx, pb3, pe23x, ha6x, alterx, ha8x, ha3. *)
Record person : Type := mkPers { p_id : Z; p_hh : Z; p_life : Z; p_salary : Z; p_position : Z; p_age : Z; p_country : Z; p_gender : Z }.
(** id_hhx, id_persx, persx, fehl_tag, tagnr, selbtag, quartal, wtagfei. *)
Record record : Type := mkRec { r_hh : Z; r_pers : Z; r_number : Z; r_missing : Z; r_day : Z; r_same : Z; r_quarter : Z; r_weekday : Z }.

Record tables : Type := mkTables { t_households : list household; t_persons : list person; t_records : list record }.

(** An argument that is None, an integer, a list of integers or a (non empty) dictionary. *)
Inductive choice : Type := CNone | CInt (z : Z) | CList (l : list Z) | CDict.
(** age and hh_mean_age: None, a number, or a tuple of two. *)
Inductive range : Type := RNone | RNumber (z : Q) | RPair (a b : Q).

(** The arguments in the order of the signature, lines 66-76.  The type of the last
    one, is_travelling, is a Boolean. *)
Record query : Type := mkQuery {
  q_full : bool; q_remove : bool; q_same : bool;
  q_quarter : option Z; q_weekday : choice; q_residents : choice; q_type : option Z;
  q_salary : option Z; q_revenue : option Z; q_work : option string; q_family : option Z; q_life : choice;
  q_mean_age : range; q_age : range; q_country : option Z; q_gender : option Z; q_position : option Z;
  q_travelling : option bool
}.

(** The calls the function makes to itself, lines 138, 145, 164, 194: the other
    arguments have their default values. *)
Definition ask_weekday (z : Z) : query :=
  mkQuery true true true None (CInt z) CNone None None None None None CNone RNone RNone None None None None.
Definition ask_residents (z : Z) : query :=
  mkQuery true true true None CNone (CInt z) None None None None None CNone RNone RNone None None None None.
Definition ask_life (z : Z) : query :=
  mkQuery true true true None CNone CNone None None None None None (CInt z) RNone RNone None None None None.
Definition ask_retired : query :=
  mkQuery true true true None CNone (CInt 1) None None None None None (CInt 8) RNone RNone None None None None.

(** ** Arrays computed when the module is imported *)

(** [df_akt_index_person], line 56: the first row with the same id. *)
Fixpoint first_person (ps : list person) (id : Z) : result person :=
  match ps with [] => Err IndexError | p :: t => if (p_id p =? id)%Z then Ok p else first_person t id end.
Definition persons_of (t : tables) : result (list person) :=
  mapM (fun r => first_person (t_persons t) (r_pers r)) (t_records t).

(** [df_hh_max_recorded_persons], line 57: np.max of an empty array fails. *)
Definition recorded_persons (t : tables) (h : household) : result Z :=
  match map r_number (filter (fun r => r_hh r =? h_id h)%Z (t_records t)) with
  | [] => Err ValueError
  | x :: l => Ok (fold_left Z.max l x)
  end.

(** [df_hh_mean_age], line 59; the mean of an empty array is nan. *)
Definition mean_age (t : tables) (h : household) : option Q :=
  match map p_age (filter (fun p => p_hh p =? h_id h)%Z (t_persons t)) with
  | [] => None
  | l => Some (inject_Z (fold_right Z.add 0%Z l) / inject_Z (Z.of_nat (length l)))%Q
  end.

(** ** Filters *)

(** [_mask &= l]. *)
Definition conj_mask (m l : list bool) : list bool := map2 andb m l.

(** A test of the columns of the diaries. *)
Definition keep (t : tables) (f : record -> bool) (m : list bool) : result (list bool) :=
  Ok (conj_mask m (map f (t_records t))).

(** [df_hh[column][df_akt['id_hhx']-1]]: the row whose label is the id minus one. *)
Definition household_of (t : tables) (r : record) : result household :=
  let i := (r_hh r - 1)%Z in
  if (i <? 0)%Z then Err KeyError
  else match nth_error (t_households t) (Z.to_nat i) with Some h => Ok h | None => Err KeyError end.
Definition keep_household (t : tables) (f : record -> household -> bool) (m : list bool) : result (list bool) :=
  bind (mapM (fun r => bind (household_of t r) (fun h => Ok (f r h))) (t_records t)) (fun l => Ok (conj_mask m l)).

(** [df_pers[column][df_akt_index_person]]. *)
Definition keep_person (people : list person) (f : person -> bool) (m : list bool) : result (list bool) :=
  Ok (conj_mask m (map f people)).

(** Lines 118-120. *)
Definition keep_full (t : tables) (recorded : list Z) (m : list bool) : result (list bool) :=
  let ids := compress (map2 (fun h n => h_size h - n =? 0)%Z (t_households t) recorded) (map h_id (t_households t)) in
  keep t (fun r => existsb (Z.eqb (r_hh r)) ids) m.

(** [[::2]] *)
Fixpoint every_second {A} (l : list A) : list A :=
  match l with x :: _ :: t => x :: every_second t | [x] => [x] | [] => [] end.

(** Lines 122-126; the reduction of an empty list is False. *)
Definition keep_days (t : tables) (m : list bool) : result (list bool) :=
  let flagged := filter (fun r => negb (r_missing r =? 0)%Z) (t_records t) in
  let hh_with_missing_day := every_second (map r_hh flagged) in
  let missing_day := every_second (map r_missing flagged) in
  keep t (fun r => negb (existsb (fun b => b) (map2 (fun hh day => (r_hh r =? hh) && (r_day r =? day))%Z hh_with_missing_day missing_day))) m.

(** Lines 128-130. *)
Definition keep_same (t : tables) : list bool -> result (list bool) :=
  keep_household t (fun r h => (r_same r =? 1) || (h_size h =? 1))%Z.

(** [if x: assert x <= most and x > 0; ...] *)
Definition checked (x : option Z) (most : Z) (f : Z -> list bool -> result (list bool)) (m : list bool) : result (list bool) :=
  match x with
  | Some z => if (z =? 0)%Z then Ok m else if ((z <=? most) && (0 <? z))%Z then f z m else Err AssertionError
  | None => Ok m
  end.

(** [np.logical_or.reduce] of masks. *)
Definition union (n : nat) (ms : list (list bool)) : list bool := fold_left (map2 orb) ms (repeat false n).

(** Lines 136-148 and 192-203.  For every element of a list the function is called
    again.  A dictionary is only foreseen as life_situation; the comparison with an
    integer fails with a TypeError. *)
Definition chosen (t : tables) (ask : Z -> result (list bool)) (dict : py_error) (c : choice) (most : Z)
    (f : Z -> list bool -> result (list bool)) (m : list bool) : result (list bool) :=
  match c with
  | CNone => Ok m
  | CInt z => checked (Some z) most f m
  | CList [] => Ok m
  | CList l => bind (mapM ask l) (fun ms => Ok (conj_mask m (union (length (t_records t)) ms)))
  | CDict => Err dict
  end.

(** Lines 166-180: the second person is only looked at if the first is retired. *)
Definition two_retired (t : tables) : result (list Z) :=
  bind (mapM (fun h => let jobs := map p_life (filter (fun p => p_hh p =? h_id h)%Z (t_persons t)) in
                       bind (vget jobs 0) (fun a =>
                       if (a =? 8)%Z then bind (vget jobs 1) (fun b => Ok (h_id h, (b =? 8)%Z)) else Ok (h_id h, false)))
          (filter (fun h => h_size h =? 2)%Z (t_households t))) (fun l =>
  Ok (map fst (filter snd l))).

(** Lines 150-186. *)
Definition keep_work (t : tables) (ask : query -> result (list bool)) (w : option string) (m : list bool) : result (list bool) :=
  match w with
  | None => Ok m
  | Some w =>
      let code := fun c => keep_household t (fun _ h => h_work h =? c)%Z m in
      if String.eqb w "" then Ok m
      else if String.eqb w "1_fulltime" then code 2%Z
      else if String.eqb w "1_halftime" then code 3%Z
      else if String.eqb w "2_fulltime" then code 4%Z
      else if String.eqb w "1_fulltime_1_halftime" then code 5%Z
      else if String.eqb w "3_fulltime" then code 6%Z
      else if String.eqb w "other" then code 7%Z
      else if String.eqb w "1_retired" then bind (ask ask_retired) (fun l => Ok (conj_mask m l))
      else if String.eqb w "2_retired" then bind (two_retired t) (fun ids => keep t (fun r => existsb (Z.eqb (r_hh r)) ids) m)
      else Err ValueError
  end.

(** [(ages >= a) & (ages < b)]; comparisons with nan are false. *)
Definition within (x : option Q) (a b : Q) : bool :=
  match x with Some x => Qle_bool a x && negb (Qle_bool b x) | None => false end.

(** [if g: assert isinstance(g, tuple); assert g[0] <= g[1]; ...] *)
Definition keep_range (g : range) (f : Q -> Q -> list bool -> result (list bool)) (m : list bool) : result (list bool) :=
  match g with
  | RNone => Ok m
  | RNumber z => if Qeq_bool z 0 then Ok m else Err AssertionError
  | RPair a b => if Qle_bool a b then f a b m else Err AssertionError
  end.

(** [df_hh_mean_age[df_akt['id_hhx']-1]], line 228: positions of an array, the
    negative ones counted from the end. *)
Definition mean_age_of (ages : list (option Q)) (r : record) : result (option Q) :=
  let n := Z.of_nat (length ages) in
  let i := (r_hh r - 1)%Z in
  let j := if (i <? 0)%Z then (i + n)%Z else i in
  if (j <? 0)%Z then Err IndexError else vget ages (Z.to_nat j).

(** Lines 221-229. *)
Definition keep_mean_age (t : tables) (a b : Q) (m : list bool) : result (list bool) :=
  let ages := map (mean_age t) (t_households t) in
  bind (mapM (fun r => bind (mean_age_of ages r) (fun x => Ok (within x a b))) (t_records t)) (fun l => Ok (conj_mask m l)).

(** get_mask_subgroup (lines 116-245) given the imported arrays and the calls it
    makes to itself. *)
Definition select (t : tables) (people : list person) (recorded : list Z) (ask : query -> result (list bool)) (q : query) :
    result (list bool) :=
  let m := repeat true (length (t_records t)) in
  bind (if q_full q then keep_full t recorded m else Ok m) (fun m =>
  bind (if q_remove q then keep_days t m else Ok m) (fun m =>
  bind (if q_same q then keep_same t m else Ok m) (fun m =>
  bind (checked (q_quarter q) 4 (fun z => keep t (fun r => r_quarter r =? z)%Z) m) (fun m =>
  bind (chosen t (fun i => ask (ask_weekday i)) TypeError (q_weekday q) 7 (fun z => keep t (fun r => r_weekday r =? z)%Z) m) (fun m =>
  bind (chosen t (fun i => ask (ask_residents i)) TypeError (q_residents q) 6 (fun z => keep_household t (fun _ h => h_size h =? z)%Z) m) (fun m =>
  bind (keep_work t ask (q_work q) m) (fun m =>
  bind (checked (q_type q) 5 (fun z => keep_household t (fun _ h => h_type h =? z)%Z) m) (fun m =>
  bind (chosen t (fun i => ask (ask_life i)) NotImplementedError (q_life q) 11 (fun z => keep_person people (fun p => p_life p =? z)%Z) m) (fun m =>
  bind (checked (q_salary q) 5 (fun z => keep_person people (fun p => p_salary p =? z)%Z) m) (fun m =>
  bind (checked (q_revenue q) 5 (fun z => keep_household t (fun _ h => h_revenue h =? z)%Z) m) (fun m =>
  bind (checked (q_position q) 9 (fun z => keep_person people (fun p => p_position p =? z)%Z) m) (fun m =>
  bind (keep_range (q_age q) (fun a b => keep_person people (fun p => within (Some (inject_Z (p_age p))) a b)) m) (fun m =>
  bind (keep_range (q_mean_age q) (keep_mean_age t) m) (fun m =>
  bind (checked (q_country q) 2 (fun z => keep_person people (fun p => p_country p =? z)%Z) m) (fun m =>
  checked (q_gender q) 2 (fun z => keep_person people (fun p => p_gender p =? z)%Z) m))))))))))))))).

(** The import of the module followed by a call of get_mask_subgroup.  The calls of
    the function to itself have integers as arguments and make no further call.
    The warning about empty subgroups (lines 241-243) is left out. *)
Definition get_mask_subgroup (t : tables) (q : query) : result (list bool) :=
  bind (persons_of t) (fun people =>
  bind (mapM (recorded_persons t) (t_households t)) (fun recorded =>
  let call := fun ask q => select t people recorded ask q in
  call (call (fun _ => Err RecursionError)) q)).
