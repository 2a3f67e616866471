(** * Model of small loaders that pick by name: the parsers of the German time use survey
      (demod/datasets/GermanTOU/loader.py:42-69, 154-238), the versions of the German
      dataset (demod/datasets/Germany/loader.py:58-71), the names of the FfE household
      types (demod/datasets/FfE_Open_Data/__init__.py:105-133) and the example of a loader
      (demod/datasets/ExampleData/example_loader.py:39-113). *)

From Coq Require Import String List ZArith QArith Bool Arith.
From Verif Require Import Prelude.
Import ListNotations.
Open Scope string_scope.

(** ** German time use survey *)

(** The two dictionaries of activities of the parser, by name. *)
Inductive book := GTOU_label_to_activity | GTOU_label_to_Bottaccioli_act.

(** A call of the parser with its arguments; the subgroup is passed unchanged.  The default
    arguments of [get_data_4states] (parser.py:1826-1830) are written out. *)
Inductive job :=
| FourStates (first : string) (durations : bool)
| Activities (b : book) (first : string) (away durations : bool)
| SparseNine.

(** [_parse_tpm], lines 154-186. *)
Definition parse_tpm (ty : string) : result job :=
  if String.eqb ty "4_States" then Ok (FourStates "last" false)
  else if String.eqb ty "DemodActivities_0" then Ok (Activities GTOU_label_to_activity "last" true false)
  else if String.eqb ty "Bottaccioli2018" then Ok (Activities GTOU_label_to_Bottaccioli_act "last" true false)
  else Err NotImplementedError.

(** [_parse_tpm_with_duration], lines 188-222. *)
Definition parse_tpm_with_duration (ty : string) : result job :=
  if String.eqb ty "4_States" then Ok (FourStates "last" true)
  else if String.eqb ty "DemodActivities_0" then Ok (Activities GTOU_label_to_activity "nothing" true true)
  else if String.eqb ty "Bottaccioli2018" then Ok (Activities GTOU_label_to_Bottaccioli_act "nothing" true true)
  else Err NotImplementedError.

(** [_parse_sparse_tpm], lines 224-238. *)
Definition parse_sparse_tpm (ty : string) : result job :=
  if String.eqb ty "Sparse9States" then Ok SparseNine else Err NotImplementedError.

(** [_load_rawdata_info], lines 42-69. *)
Record info := Info { in_book : option book; in_away : bool; in_secondary : bool }.
Definition rawdata_info (ty : string) : info :=
  let corresponding := [("DemodActivities_0", GTOU_label_to_activity); ("Bottaccioli2018", GTOU_label_to_Bottaccioli_act)] in
  match dget String.eqb corresponding ty with
  | Some b => Info (Some b) true true
  | None => Info None false false
  end.

(** Germany/loader.py:64-71: the type of activities of a version. *)
Definition germany_type (version : string) : result string :=
  if String.eqb version "v0.1" then Ok "Sparse9States"
  else if String.eqb version "vBottaccioli" then Ok "Bottaccioli2018"
  else Err ValueError.

(** ** Names of the FfE household types *)

(** What can be given: an int of Python (True and False are 1 and 0), an integer of numpy,
    a text, a list or tuple, an array of integers, or anything else that is neither an int
    nor iterable. *)
Inductive label := LInt (z : Z) | LNumpy (z : Z) | LText (s : string) | LList (l : list label) | LArray (l : list Z) | LOther.
Inductive naming := Name (s : string) | Nothing | Names (l : list naming).

(** Lines 109-131. *)
Definition int_name (z : Z) : naming :=
  if (z =? 1)%Z then Name "One full-time working person"
  else if (z =? 2)%Z then Name "One pensioneer"
  else if (z =? 3)%Z then Name "Two full-time working persons"
  else if (z =? 4)%Z then Name "Two pensioneers"
  else if (z =? 5)%Z then Name "One full-time and one part-time working person"
  else if (z =? 6)%Z then Name "Two full-time working persons, one child"
  else if (z =? 7)%Z then Name "One full-time and one part-time working person, one child"
  else if (z =? 8)%Z then Name "Two full-time working persons, two children"
  else if (z =? 9)%Z then Name "One full-time and one part-time working person, two children"
  else if (z =? 10)%Z then Name " Two full-time working persons, three children"
  else if (z =? 11)%Z then Name " One full-time and one part-time working person, three children"
  else Nothing.

(** Lines 105-133.  The elements of an array are integers of numpy, which are not ints; the
    elements of a text are texts, so that a text that is not empty never ends. *)
Fixpoint labels_name (x : label) : result naming :=
  match x with
  | LInt z => Ok (int_name z)
  | LNumpy _ | LOther => Ok Nothing
  | LText s => if String.eqb s "" then Ok (Names []) else Err RecursionError
  | LArray l => Ok (Names (map (fun _ => Nothing) l))
  | LList l =>
      bind ((fix all (l : list label) : result (list naming) :=
               match l with [] => Ok [] | y :: t => bind (labels_name y) (fun v => bind (all t) (fun vs => Ok (v :: vs))) end) l)
        (fun vs => Ok (Names vs))
  end.

(** ** The example *)

(** The two files of the example and the raw file, if they are there and can be read. *)
Record shelf (A : Type) := Shelf { sh_one : option A; sh_two : option A; sh_raw : option (A * A) }.
Arguments Shelf {A}. Arguments sh_one {A}. Arguments sh_two {A}. Arguments sh_raw {A}.

(** [_parse_example], lines 74-113: both columns are saved. *)
Definition parse_example {A} (d : shelf A) : shelf A * result (A * A) :=
  match sh_raw d with
  | None => (d, Err FileNotFoundError)
  | Some (a, b) => (Shelf (Some a) (Some b) (sh_raw d), Ok (a, b))
  end.

(** [get_example1_data], lines 39-70: the second array is [None] if it is not asked for. *)
Definition get_example {A} (both : bool) (d : shelf A) : shelf A * result (A * option A) :=
  match sh_one d, (if both then sh_two d else sh_one d) with
  | Some a, Some b => (d, Ok (a, if both then Some b else None))
  | _, _ => let '(d', r) := parse_example d in (d', bind r (fun ab => Ok (fst ab, if both then Some (snd ab) else None)))
  end.
