(** * Dictionaries read from the sheets of a spreadsheet, and the German data. *)

From Coq Require Import String Ascii List ZArith QArith Bool Arith.
From Verif Require Import Prelude Appliance_Model.
Import ListNotations.
Open Scope string_scope.

(** A cell as pandas gives it: a text, a number, a truth value, NaN for an empty
    cell, or something else (a date). *)
Inductive cell : Type := CText (s : string) | CNum (q : Q) | CBool (b : bool) | CNan | COther.

(** The heading of a column: a text, a number or something else. *)
Inductive heading : Type := HText (s : string) | HNum (z : Z) | HOther.

Definition heading_eqb (a b : heading) : bool :=
  match a, b with
  | HText s, HText t => String.eqb s t
  | HNum x, HNum y => Z.eqb x y
  | HOther, HOther => true
  | _, _ => false
  end.

(** The columns of a DataFrame; pandas makes their headings different. *)
Definition sheet : Type := list (heading * list cell).

(** [str.replace(" ", "")]. *)
Fixpoint delete_spaces (s : string) : string :=
  match s with
  | EmptyString => EmptyString
  | String c t => if Ascii.eqb c " "%char then delete_spaces t else String c (delete_spaces t)
  end.

(** utils/parse_helpers.py lines 341-373 [remove_spaces], for cells and headings;
    lists and dictionaries are [mapM] below. *)
Definition clean_cell (c : cell) : result cell :=
  match c with
  | CText s => Ok (CText (delete_spaces s))
  | COther => Err NotImplementedError
  | c => Ok c
  end.
Definition clean_heading (h : heading) : result heading :=
  match h with
  | HText s => Ok (HText (delete_spaces s))
  | HOther => Err NotImplementedError
  | h => Ok h
  end.

(** [str(key).startswith("Unnamed:")]; the text of a number or a date does not. *)
Definition unnamed (h : heading) : bool :=
  match h with HText s => String.prefix "Unnamed:" s | _ => false end.

(** Values of the dictionary. *)
Inductive entry : Type := Cells (l : list cell) | Flags (l : list bool) | Number (z : Z).

(** One element of [np.array(column, dtype=bool)]; the conversion of texts is an
    argument. *)
Definition truth (text_flag : string -> result bool) (c : cell) : result bool :=
  match c with
  | CText s => text_flag s
  | CNum q => Ok (negb (Qeq_bool q 0))
  | CBool b => Ok b
  | CNan => Ok true
  | COther => Ok true
  end.

Definition clean_column (kc : heading * list cell) : result (heading * entry) :=
  bind (clean_heading (fst kc)) (fun k => bind (mapM clean_cell (snd kc)) (fun l => Ok (k, Cells l))).

Fixpoint set_flags (text_flag : string -> result bool) (flags : list string) (d : list (heading * entry)) :
  result (list (heading * entry)) :=
  match flags with
  | [] => Ok d
  | f :: rest =>
      bind (match dget heading_eqb d (HText f) with
            | Some (Cells l) => bind (mapM (truth text_flag) l) (fun b => Ok (dset heading_eqb d (HText f) (Flags b)))
            | _ => Ok d
            end) (set_flags text_flag rest)
  end.

(** Lines 69-85 of ExcellInputFile/loader.py with the flags of line 77-84, lines
    152-193 without flags, lines 153-174 of Germany/loader.py with three flags. *)
Definition sheet_dict (text_flag : string -> result bool) (flags : list string) (sh : sheet) : result (list (heading * entry)) :=
  bind (mapM clean_column (filter (fun kc => negb (unnamed (fst kc))) sh)) (fun items =>
  bind (set_flags text_flag flags (fold_left (fun d kv => dset heading_eqb d (fst kv) (snd kv)) items [])) (fun d =>
  match dget heading_eqb d (HText "name") with
  | Some (Cells l) => Ok (dset heading_eqb d (HText "number") (Number (Z.of_nat (length l))))
  | Some (Flags l) => Ok (dset heading_eqb d (HText "number") (Number (Z.of_nat (length l))))
  | Some (Number _) => Err TypeError
  | None => Err KeyError
  end)).

Definition input_flags : list string := ["inactive_switch_off"; "uses_water"].
Definition german_flags : list string := ["inactive_switch_off"; "uses_water"; "probabilistic"].

(** ExcellInputFile/loader.py lines 208-217 [load_yearly_target_switchons] on the
    columns 'type' and 'target_cycle_year': a dictionary comprehension over
    [zip]. *)
Definition yearly_targets (types : list string) (targets : list Q) : list (string * Q) :=
  fold_left (fun d tv => dset String.eqb d (fst tv) (snd tv)) (combine types targets) [].

(** The same from the dictionary of the sheet.  Columns of texts and numbers only. *)
Definition texts (e : option entry) : result (list string) :=
  match e with
  | Some (Cells l) => mapM (fun c => match c with CText s => Ok s | _ => Err TypeError end) l
  | Some _ => Err TypeError
  | None => Err KeyError
  end.
Definition numbers (e : option entry) : result (list Q) :=
  match e with
  | Some (Cells l) => mapM (fun c => match c with CNum q => Ok q | _ => Err TypeError end) l
  | Some _ => Err TypeError
  | None => Err KeyError
  end.
Definition load_yearly_targets (d : list (heading * entry)) : result (list (string * Q)) :=
  bind (texts (dget heading_eqb d (HText "type"))) (fun types =>
  bind (numbers (dget heading_eqb d (HText "target_cycle_year"))) (fun targets =>
  Ok (yearly_targets types targets))).

(** ** GermanDataHerus *)

(** Germany/loader.py lines 211-285 [_parse_thermostat_dict]. *)
Definition home_cdf : list Q :=
  cumsum [1#100; 2#100; 1#100; 3#100; 4#100; 8#100; 16#100; 14#100; 16#100; 16#100; 9#100; 5#100; 3#100; 1#100; 1#100].
Definition home_values : list Q := [13; 14; 15; 16; 17; 18; 19; 20; 21; 22; 23; 24; 25; 26; 27].
Definition water_cdf : list Q :=
  cumsum [4#100; 4#100; 11#100; 8#100; 13#100; 9#100; 14#100; 11#100; 8#100; 10#100; 4#100; 4#100].
Definition water_values : list Q := [42; 43; 45; 47; 49; 51; 53; 55; 57; 59; 61; 62].
Definition emitter_setpoint : Q := 50.
Definition deadbands : list (string * Z) := [("space_heating", 1%Z); ("hot_water", 5%Z); ("emitter", 5%Z)].

(** Lines 62-69: the version of the activity data of a version. *)
Definition german_version (v : string) : result string :=
  if String.eqb v "v0.1" then Ok "Sparse9States"
  else if String.eqb v "vBottaccioli" then Ok "Bottaccioli2018"
  else Err ValueError.

(** [str.format] with positional arguments: as many braces as [n_fields] need at
    least as many arguments. *)
Definition format (n_fields n_args : nat) : result unit := if Nat.leb n_fields n_args then Ok tt else Err IndexError.

(** Lines 176-189 [_parse_fisher_lighting]; the message of lines 184-189 has two
    fields and one argument. *)
Definition fisher_lighting (version : string) : result (list (string * Z)) :=
  if String.eqb version "v0.1" then
    Ok [("irradiation_threshold_min", 30%Z); ("irradiation_threshold_max", 60%Z); ("individual_light_use", 12%Z)]
  else bind (format 2 1) (fun _ => Err NotImplementedError).

(** A loader of the class: its version is checked by the constructor. *)
Definition load_fisher_lighting (version : string) : result (list (string * Z)) :=
  bind (german_version version) (fun _ => fisher_lighting version).

(** Lines 136-151: the guard of [_parse_appliance_dict]. *)
Definition german_appliances (text_flag : string -> result bool) (version : string) (sh : sheet) : result (list (heading * entry)) :=
  if String.eqb version "v0.1" || String.eqb version "vBottaccioli" then sheet_dict text_flag german_flags sh else Err NotImplementedError.
