(** * Model of the dataset loaders: parsed files as a cache.

    Source: demod/datasets/base_loader.py, demod/datasets/tou_loader.py and the
    conversions of demod/utils/parse_helpers.py.  The files of the parsed data
    folder are a dictionary from relative paths to contents; folders, warnings
    and versions are not represented.  Parsing the raw data is an argument. *)

From Coq Require Import String Ascii List ZArith QArith Bool Arith.
From Verif Require Import Prelude Subgroup_Model.
Import ListNotations.
Local Open Scope string_scope.

(** ** Python objects *)

Inductive scalar : Type := SBool (b : bool) | SInt (z : Z) | SFloat (q : Q) | SStr (s : string).

(** [OPy]: instances of str, int (also bool) or float, including the numpy types
    that are subclasses of those (np.float64, np.str_).  [ONp]: the other numpy
    scalars (np.int64, np.bool_, np.float32).  [OArr]: an array, given by what
    iterating over it yields.  [OOther]: anything else, for example a tuple. *)
Inductive obj : Type :=
| ONone
| OPy (x : scalar)
| ONp (x : scalar)
| OList (l : list obj)
| OArr (l : list obj)
| ODict (items : list (obj * obj))
| OOther.

(** A comprehension over a list that stops at the first exception ([mapM] of the
    Prelude in a form accepted inside recursive definitions). *)
Section Each.
Context {A B : Type} (f : A -> result B).
Fixpoint each (l : list A) : result (list B) :=
  match l with
  | [] => Ok []
  | x :: t => bind (f x) (fun y => bind (each t) (fun ys => Ok (y :: ys)))
  end.
End Each.

Definition pair_result {A B : Type} (a : result A) (b : result B) : result (A * B) :=
  bind a (fun x => bind b (fun y => Ok (x, y))).

(** [make_jsonable] (parse_helpers.py 311-338). *)
Fixpoint make_jsonable (o : obj) : result obj :=
  match o with
  | ODict items => bind (each (fun kv => match kv with (k, v) => pair_result (make_jsonable k) (make_jsonable v) end) items) (fun r => Ok (ODict r))
  | OList l | OArr l => bind (each make_jsonable l) (fun r => Ok (OList r))
  | OPy x => Ok (OPy x)
  | ONp x => Ok (OPy x)
  | ONone => Ok ONone
  | OOther => Err NotImplementedError
  end.

(** What iterating over [np.asarray(list)] yields: numbers become numpy scalars,
    lists become arrays.  The conversion of mixed types to a common type and
    ragged lists are not represented. *)
Fixpoint np_element (o : obj) : obj :=
  match o with
  | OPy (SInt z) => ONp (SInt z)
  | OPy (SBool b) => ONp (SBool b)
  | OList l => OArr (map np_element l)
  | o => o
  end.

(** [np.asarray] of a list or an array. *)
Definition np_asarray (o : obj) : obj := match o with OList l => OArr (map np_element l) | o => o end.

(** [lists_to_numpy_array] (parse_helpers.py 375-398). *)
Fixpoint lists_to_numpy_array (o : obj) : result obj :=
  match o with
  | ODict items => bind (each (fun kv => match kv with (k, v) => pair_result (lists_to_numpy_array k) (lists_to_numpy_array v) end) items) (fun r => Ok (ODict r))
  | OList l => Ok (np_asarray (OList l))
  | OArr l => Ok (OArr l)
  | OPy x => Ok (OPy x)
  | _ => Err NotImplementedError
  end.

Section Json.
(** How json writes a float used as a key. *)
Variable float_text : Q -> string.

(** Keys are written as strings by [json.dump]. *)
Definition key_text (k : obj) : result string :=
  match k with
  | OPy (SStr s) => Ok s
  | OPy (SInt z) => Ok (str_Z z)
  | OPy (SBool b) => Ok (if b then "true" else "false")
  | OPy (SFloat q) => Ok (float_text q)
  | ONone => Ok "null"
  | _ => Err TypeError
  end.

(** [json.load] of what [json.dump] wrote; the last of equal keys wins. *)
Fixpoint json_trip (o : obj) : result obj :=
  match o with
  | ONone => Ok ONone
  | OPy x => Ok (OPy x)
  | OList l => bind (each json_trip l) (fun r => Ok (OList r))
  | ODict items =>
      bind (each (fun kv => match kv with (k, v) => pair_result (key_text k) (json_trip v) end) items) (fun r =>
      Ok (ODict (map (fun kv => (OPy (SStr (fst kv)), snd kv)) (fold_left (fun d kv => dset String.eqb d (fst kv) (snd kv)) r []))))
  | _ => Err TypeError
  end.

(** ** JSON files *)

(** A readable file, or one that was opened for writing and then abandoned. *)
Inductive json_file : Type := Written (o : obj) | Abandoned.

(** The files and the number of times raw data was parsed. *)
Record disk : Type := mkDisk { files : list (string * json_file); parses : nat }.

(** Loads of one dictionary each: base_loader.py 413-444, 564-607, 619-664,
    676-724, 1099-1123, 1131-1155, 1163-1187. *)
Inductive request : Type :=
| Appliances
| Switchons (sg : subgroup)
| Consumption (sg : subgroup)
| Duration (sg : subgroup)
| Buildings (sg : subgroup)
| HeatingSystem (sg : subgroup)
| Thermostat (sg : subgroup).

(** File names, relative to the parsed data folder. *)
Definition path (r : request) : string :=
  match r with
  | Appliances => "appliance_dict.json"
  | Switchons sg => "appliance_targets/switchons__" ++ subgroup_string (remove_time_attributues sg)
  | Consumption sg => "appliance_targets/consumption__" ++ subgroup_string (remove_time_attributues sg)
  | Duration sg => "appliance_targets/duration__" ++ subgroup_string (remove_time_attributues sg)
  | Buildings sg => "heating/" ++ subgroup_string sg ++ "_buildings_dict.json"
  | HeatingSystem sg => "heating/" ++ subgroup_string sg ++ "_heating_system_dict.json"
  | Thermostat sg => "heating/" ++ subgroup_string sg ++ "_thermostat_dict.json"
  end.

(** The returned value. *)
Definition finish (r : request) (o : obj) : result obj :=
  match r with
  | Switchons _ | Consumption _ | Duration _ => Ok o
  | _ => lists_to_numpy_array o
  end.

(** [dict(json.load(f))]; only dictionaries are represented. *)
Definition as_dict (o : obj) : result obj := match o with ODict items => Ok (ODict items) | _ => Err TypeError end.

(** The check of lines 432-439. *)
Definition check (r : request) (o : obj) : result unit :=
  match r, o with
  | Appliances, ODict items => if existsb (fun kv => match fst kv with OPy (SStr s) => String.eqb s "type" | _ => false end) items then Ok tt else Err ValueError
  | _, _ => Ok tt
  end.

Definition put_file (d : disk) (p : string) (f : json_file) : disk := mkDisk (dset String.eqb (files d) p f) (parses d).
Definition parsed_once (d : disk) : disk := mkDisk (files d) (S (parses d)).

(** One load (for example lines 422-444).  The file is opened for writing before
    the object is converted. *)
Definition load (parse : request -> result obj) (r : request) (d : disk) : disk * result obj :=
  match dget String.eqb (files d) (path r) with
  | Some (Written o) => (d, bind (as_dict o) (finish r))
  | Some Abandoned => (d, Err ValueError)
  | None =>
      let d1 := parsed_once d in
      match bind (parse r) (fun o => bind (check r o) (fun _ => Ok o)) with
      | Err e => (d1, Err e)
      | Ok o =>
          match bind (make_jsonable o) json_trip with
          | Ok j => (put_file d1 (path r) (Written j), finish r o)
          | Err e => (put_file d1 (path r) Abandoned, Err e)
          end
      end
  end.

(** A sequence of loads, each with its own behaviour of the parser. *)
Fixpoint load_all (rs : list (request * (request -> result obj))) (d : disk) : disk * list (result obj) :=
  match rs with
  | [] => (d, [])
  | (r, parse) :: rs' => let (d1, o) := load parse r d in let (d2, os) := load_all rs' d1 in (d2, o :: os)
  end.
End Json.

(** ** Array files (tou_loader.py) *)

Section Tou.
Variable A : Type.  (** arrays *)

(** [.npz] files hold named arrays, [.npy] files one array. *)
Inductive np_file : Type := Npz (arrays : list (string * A)) | Npy (array : A).

Notation disk_np := (list (string * np_file)).

Definition read_npz (d : disk_np) (p : string) : result (list (string * A)) :=
  match dget String.eqb d (p ++ ".npz") with Some (Npz arrays) => Ok arrays | Some (Npy _) => Err ValueError | None => Err FileNotFoundError end.

Definition read_npy (d : disk_np) (p : string) : result A :=
  match dget String.eqb d (p ++ ".npy") with Some (Npy a) => Ok a | Some (Npz _) => Err ValueError | None => Err FileNotFoundError end.

Definition save_npz (d : disk_np) (p : string) (arrays : list (string * A)) : disk_np := dset String.eqb d (p ++ ".npz") (Npz arrays).
Definition save_npy (d : disk_np) (p : string) (a : A) : disk_np := dset String.eqb d (p ++ ".npy") (Npy a).

Definition array (l : list (string * A)) (k : string) : result A :=
  match dget String.eqb l k with Some a => Ok a | None => Err KeyError end.

(** A dictionary in one npz file: [load_activity_probability_profiles],
    [load_daily_activity_starts], [load_activity_duration],
    [load_activity_probabilities] (lines 249-293, 308-352, 359-400, 407-436). *)
Definition load_npz_dict (p : string) (parse : result (list (string * A))) (d : disk_np) : disk_np * result (list (string * A)) :=
  match read_npz d p with
  | Ok arrays => (d, Ok arrays)
  | Err FileNotFoundError => match parse with Ok arrays => (save_npz d p arrays, Ok arrays) | Err e => (d, Err e) end
  | Err e => (d, Err e)
  end.

(** [load_tpm] (lines 46-91); the legend file is not represented. *)
Definition load_tpm (p : string) (parse : result (A * A * A)) (d : disk_np) : disk_np * result (A * A * A) :=
  match read_npz d p with
  | Ok file => (d, bind (array file "tpm") (fun tpm => bind (array file "labels") (fun labels => bind (array file "initial_pdf") (fun pdf => Ok (tpm, labels, pdf)))))
  | Err FileNotFoundError =>
      match parse with
      | Ok (tpm, labels, pdf) => (save_npz d p [("tpm", tpm); ("labels", labels); ("initial_pdf", pdf)], Ok (tpm, labels, pdf))
      | Err e => (d, Err e)
      end
  | Err e => (d, Err e)
  end.

(** [load_tpm_with_duration] (lines 99-160): the path gets a suffix. *)
Definition load_tpm_with_duration (p : string) (parse : result (A * A * A * A * A)) (d : disk_np) : disk_np * result (A * A * A * A * A) :=
  let p := p ++ "_with_duration" in
  match read_npz d p with
  | Ok file => (d, bind (array file "tpm") (fun tpm => bind (array file "duration_pdfs") (fun dur => bind (array file "labels") (fun labels =>
      bind (array file "initial_pdf") (fun pdf => bind (array file "initial_duration_pdfs") (fun ini => Ok (tpm, dur, labels, pdf, ini)))))))
  | Err FileNotFoundError =>
      match parse with
      | Ok (tpm, dur, labels, pdf, ini) =>
          (save_npz d p [("tpm", tpm); ("duration_pdfs", dur); ("labels", labels); ("initial_pdf", pdf); ("initial_duration_pdfs", ini)], Ok (tpm, dur, labels, pdf, ini))
      | Err e => (d, Err e)
      end
  | Err e => (d, Err e)
  end.

Record sparse_parts : Type := mkParts { s_times : A; s_from : A; s_to : A; s_values : A; s_labels : A; s_activities : A; s_pdf : A }.

(** [SparseTPM.load] (utils/sparse.py 223-238). *)
Definition read_sparse (d : disk_np) (p : string) : result (A * A * A * A) :=
  bind (read_npy d (p ++ "_tpm_times")) (fun t => bind (read_npy d (p ++ "_tpm_inds_from")) (fun f =>
  bind (read_npy d (p ++ "_tpm_inds_to")) (fun i => bind (read_npy d (p ++ "_tpm_values")) (fun v => Ok (t, f, i, v))))).

(** [_load_parsed_data] (base_loader.py 249-291), unpacked into three values. *)
Definition read_three (d : disk_np) (p : string) : result (A * A * A) :=
  match read_npy d p with
  | Ok _ => Err ValueError
  | Err FileNotFoundError => bind (read_npz d p) (fun file => match map snd file with [a; b; c] => Ok (a, b, c) | _ => Err ValueError end)
  | Err e => Err e
  end.

(** [load_sparse_tpm] (lines 179-228). *)
Definition load_sparse_tpm (p : string) (parse : result sparse_parts) (d : disk_np) : disk_np * result sparse_parts :=
  match bind (read_sparse d p) (fun q => bind (read_three d p) (fun r => Ok (q, r))) with
  | Ok ((t, f, i, v), (labels, acts, pdf)) => (d, Ok (mkParts t f i v labels acts pdf))
  | Err FileNotFoundError =>
      match parse with
      | Ok s =>
          let d := save_npy d (p ++ "_tpm_times") (s_times s) in let d := save_npy d (p ++ "_tpm_inds_from") (s_from s) in
          let d := save_npy d (p ++ "_tpm_inds_to") (s_to s) in let d := save_npy d (p ++ "_tpm_values") (s_values s) in
          (save_npz d p [("arr_0", s_labels s); ("arr_1", s_activities s); ("arr_2", s_pdf s)], Ok s)
      | Err e => (d, Err e)
      end
  | Err e => (d, Err e)
  end.
End Tou.

(** ** Real load profiles (base_loader.py 446-491) *)

(** [str.split(name, '&')]. *)
Fixpoint split_char (c : ascii) (s : string) : list string :=
  match s with
  | EmptyString => [""]
  | String x s' => if Ascii.eqb x c then "" :: split_char c s'
                   else match split_char c s' with [] => [String x ""] | w :: ws => String x w :: ws end
  end.

Definition profiles_dict (A : Type) : Type := list (string * list (string * A)).

(** Lines 483-487. *)
Definition flatten {A : Type} (d : profiles_dict A) : list (string * A) :=
  fold_left (fun out e => fold_left (fun out nl => dset String.eqb out (fst e ++ "&" ++ fst nl) (snd nl)) (snd e) out) d [].

(** Lines 470-476: unpacking into two names fails unless there is exactly one
    separator. *)
Fixpoint rebuild {A : Type} (l : list (string * A)) (d : profiles_dict A) : result (profiles_dict A) :=
  match l with
  | [] => Ok d
  | (name, load) :: l' =>
      match split_char "&" name with
      | [app_type; profile_name] =>
          let inner := match dget String.eqb d app_type with Some i => i | None => [] end in
          rebuild l' (dset String.eqb d app_type (dset String.eqb inner profile_name load))
      | _ => Err ValueError
      end
  end.

(** ** Historical climate (base_loader.py 852-911) *)

(** The part that selects the data; times are microseconds, and the dictionary
    of columns is a list of rows. *)
Definition historical_slice {A : Type} (rows : list (Z * A)) (start step : Z) : result (list (Z * A)) :=
  match rev rows with
  | [] => Err IndexError
  | (last, _) :: _ => if Z.ltb last start then Err ValueError else Ok (filter (fun r => Z.ltb (start - step) (fst r)) rows)
  end.

(** ** Sequences of array loads *)

(** One call of a loader of time of use data. *)
Inductive tou_call (A : Type) : Type :=
| CallTpm (p : string) (parse : result (A * A * A))
| CallDuration (p : string) (parse : result (A * A * A * A * A))
| CallSparse (p : string) (parse : result (sparse_parts A))
| CallDict (p : string) (parse : result (list (string * A))).
Arguments CallTpm {A}. Arguments CallDuration {A}. Arguments CallSparse {A}. Arguments CallDict {A}.

Definition after_call {A : Type} (d : list (string * np_file A)) (c : tou_call A) : list (string * np_file A) :=
  match c with
  | CallTpm p parse => fst (load_tpm A p parse d)
  | CallDuration p parse => fst (load_tpm_with_duration A p parse d)
  | CallSparse p parse => fst (load_sparse_tpm A p parse d)
  | CallDict p parse => fst (load_npz_dict A p parse d)
  end.

Definition after_calls {A : Type} (d : list (string * np_file A)) (cs : list (tou_call A)) : list (string * np_file A) := fold_left after_call cs d.
