(** * Model of files kept by the loaders: saved arrays, climate of a country, FfE
    profiles, measured profiles, and the remaining caches of base_loader.py. *)

From Coq Require Import String Ascii List ZArith QArith Bool Arith.
From Verif Require Import Prelude Subgroup_Model Loader_Model.
Import ListNotations.
Open Scope string_scope.

(** ** Saved arrays (base_loader.py lines 219-334) *)

Section Saved.
Context {A : Type}.
(** [np.asarray] of a list of arrays. *)
Variable asarray : list A -> result A.
(** Whether an array holds Python objects. *)
Variable is_object : A -> bool.

Inductive saved_file : Type := SNpy (a : A) | SNpz (l : list A).
Definition store : Type := list (string * saved_file).

Fixpoint ends_with (s suffix : string) : bool :=
  String.eqb s suffix || match s with EmptyString => false | String _ t => ends_with t suffix end.

(** numpy appends the suffix unless the name has it. *)
Definition with_suffix (p suffix : string) : string := if ends_with p suffix then p else p ++ suffix.

(** The argument [array]. *)
Inductive to_save : Type := OneArray (a : A) | Arrays (l : list A) | NotArrays.

(** Lines 293-334 [_save_parsed_data]. *)
Definition save_parsed (d : store) (name : string) (x : to_save) (npz compress : bool) : result store :=
  match x with
  | NotArrays => Err TypeError
  | OneArray a => if compress || npz then Ok (dset String.eqb d (with_suffix name ".npz") (SNpz [a]))
                  else Ok (dset String.eqb d (with_suffix name ".npy") (SNpy a))
  | Arrays l => if compress || npz then Ok (dset String.eqb d (with_suffix name ".npz") (SNpz l))
                else bind (asarray l) (fun a => Ok (dset String.eqb d (with_suffix name ".npy") (SNpy a)))
  end.

Inductive loaded : Type := LArray (a : A) | LArrays (l : list A).

(** Lines 219-227.  [np.load] looks at the contents, not at the name: the values
    of a single array, or the arrays of an archive, are given for the other kind
    too (a name that ends with a suffix).  [values()] of a single array is an
    AttributeError. *)
Definition load_npy (pickle : bool) (d : store) (name : string) : result loaded :=
  match dget String.eqb d (name ++ ".npy") with
  | Some (SNpy a) => if is_object a && negb pickle then Err ValueError else Ok (LArray a)
  | Some (SNpz l) => Ok (LArrays l)
  | None => Err FileNotFoundError
  end.
Definition load_npz (pickle : bool) (d : store) (name : string) : result loaded :=
  match dget String.eqb d (name ++ ".npz") with
  | Some (SNpz l) => if existsb is_object l && negb pickle then Err ValueError else Ok (LArrays l)
  | Some (SNpy a) => if is_object a && negb pickle then Err ValueError else Err AttributeError
  | None => Err FileNotFoundError
  end.

(** Lines 249-292 [_load_parsed_data]. *)
Definition load_parsed (pickle : bool) (d : store) (name : string) : result loaded :=
  match load_npy pickle d name with
  | Err FileNotFoundError => load_npz pickle d name
  | r => r
  end.
End Saved.
Arguments saved_file : clear implicits.
Arguments store : clear implicits.
Arguments to_save : clear implicits.
Arguments loaded : clear implicits.

(** ** Step sizes (lines 229-247) *)

(** A timedelta of [us] microseconds is kept as days, seconds and microseconds. *)
Definition day_us : Z := 86400000000.
Definition td_days (us : Z) : Z := us / day_us.
Definition td_seconds (us : Z) : Z := (us mod day_us) / 1000000.
Definition td_micro (us : Z) : Z := us mod 1000000.

Definition save_step (d : list (string * list (string * Z))) (name : string) (us : Z) : list (string * list (string * Z)) :=
  dset String.eqb d (name ++ ".json") [("days", td_days us); ("seconds", td_seconds us); ("microseconds", td_micro us)].

(** [timedelta] called for the three keys. *)
Definition timedelta_of (l : list (string * Z)) : result Z :=
  fold_left (fun r kv => bind r (fun t =>
    if String.eqb (fst kv) "days" then Ok (t + day_us * snd kv)%Z
    else if String.eqb (fst kv) "seconds" then Ok (t + 1000000 * snd kv)%Z
    else if String.eqb (fst kv) "microseconds" then Ok (t + snd kv)%Z
    else Err TypeError)) l (Ok 0%Z).

Definition load_step (d : list (string * list (string * Z))) (name : string) : result Z :=
  match dget String.eqb d (name ++ ".json") with Some l => timedelta_of l | None => Err FileNotFoundError end.

(** ** Climate of a country *)

(** utils/countries.py lines 8-37. *)
Definition country_table : list (string * string) := [("germany", "DE"); ("switzerland", "CH"); ("england", "GB")].
Definition country_code (name : string) : result string :=
  if Nat.eqb (String.length name) 2 then Ok name
  else match dget String.eqb country_table name with Some c => Ok c | None => Err NotImplementedError end.

Section Ninja.
Context {Raw Data : Type}.
(** RenewablesNinja/loader.py lines 125-166 [_parse_historical_climate_data]. *)
Variable parse : Raw -> result Data.

(** Raw files by name, and for each parsed folder its file. *)
Record ninja_disk : Type := mkNinja { n_raw : list (string * Raw); n_parsed : list (string * option Data) }.

Definition raw_name (code weighting : string) : string := code ++ "_" ++ weighting ++ ".csv".

(** Lines 57-123: the constructor.  [server] is what the server answers now. *)
Definition construct (server : string -> string -> result Raw) (name weighting : string) (update : bool) (d : ninja_disk) : ninja_disk * result unit :=
  let d1 := match dget String.eqb (n_parsed d) name with
            | Some _ => d
            | None => mkNinja (n_raw d) (dset String.eqb (n_parsed d) name None)
            end in
  match country_code name with
  | Err e => (d1, Err e)
  | Ok code =>
      if dmem String.eqb (n_raw d1) (raw_name code weighting) && negb update then (d1, Ok tt)
      else match server code weighting with
           | Err e => (d1, Err e)
           | Ok r => (mkNinja (dset String.eqb (n_raw d1) (raw_name code weighting) r) (dset String.eqb (n_parsed d1) name None), Ok tt)
           end
  end.

(** base_loader.py lines 873-884 for an object made with this name and weighting;
    the selection of times is [historical_slice].  Without the folder made by the
    constructor nothing can be written. *)
Definition climate (name weighting : string) (d : ninja_disk) : ninja_disk * result Data :=
  match dget String.eqb (n_parsed d) name with
  | None => (d, Err FileNotFoundError)
  | Some (Some x) => (d, Ok x)
  | Some None =>
      match country_code name with
      | Err e => (d, Err e)
      | Ok code =>
          match dget String.eqb (n_raw d) (raw_name code weighting) with
          | None => (d, Err FileNotFoundError)
          | Some r => match parse r with
                      | Err e => (d, Err e)
                      | Ok x => (mkNinja (n_raw d) (dset String.eqb (n_parsed d) name (Some x)), Ok x)
                      end
          end
      end
  end.

(** Calls in a program. *)
Inductive ninja_call : Type :=
| Make (name weighting : string) (update : bool) (server : string -> string -> result Raw)
| Climate (name weighting : string).

Definition ninja_after (d : ninja_disk) (c : ninja_call) : ninja_disk :=
  match c with
  | Make name weighting update server => fst (construct server name weighting update d)
  | Climate name weighting => fst (climate name weighting d)
  end.
Definition ninja_run (cs : list ninja_call) : ninja_disk := fold_left ninja_after cs (mkNinja [] []).
End Ninja.
Arguments ninja_disk : clear implicits.
Arguments ninja_call : clear implicits.

(** The columns of the parsed climate, lines 139-166; times are numbers. *)
Definition col (csv : list (string * list Q)) (k : string) : result (list Q) :=
  match dget String.eqb csv k with Some l => Ok l | None => Err KeyError end.
Definition parse_climate (csv : list (string * list Q)) : result (list (string * list Q)) :=
  bind (col csv "time") (fun t => bind (col csv "precipitation") (fun p => bind (col csv "snowfall") (fun sf => bind (col csv "snow_mass") (fun sm =>
  bind (col csv "cloud_cover") (fun c => bind (col csv "air_density") (fun a => bind (col csv "temperature") (fun o =>
  bind (col csv "irradiance_surface") (fun direct => bind (col csv "irradiance_toa") (fun diffuse =>
  Ok [("datetime", t); ("precipitation", p); ("snowfall", sf); ("snow_mass", sm); ("clearness", c); ("air_density", a);
      ("outside_temperature", o); ("irradiance", map2 Qplus diffuse direct)]))))))))).

(** ** FfE profiles (FfE_Open_Data/__init__.py) *)

(** Arrays: profiles, one row each (equally long), or an array of dictionaries
    with one household type each; only the latter, if not empty, holds objects. *)
Inductive ffe_array : Type := Profiles (rows : list (list Q)) | Labels (types : list Z).
Definition ffe_object (a : ffe_array) : bool := match a with Labels (_ :: _) => true | _ => false end.

(** An entry of the raw file. *)
Record ffe_row : Type := { e_values : list Q; e_type : Z; e_phase : Z }.

Inductive ffe_kind : Type := Electric | Thermal.
Definition ffe_file (k : ffe_kind) : string := match k with Electric => "electric_loads" | Thermal => "heat_loads" end.

Definition no_asarray (l : list ffe_array) : result ffe_array := Err ValueError.

(** Lines 139-218: parsing; [raw] is the content of the raw file, if there is one.
    The list of labels becomes an array in [_save_parsed_data]. *)
Definition ffe_rows (k : ffe_kind) (l : list ffe_row) : list ffe_row :=
  match k with Electric => filter (fun e => Z.eqb (e_phase e) 0) l | Thermal => l end.
Definition ffe_parse (k : ffe_kind) (raw : option (list ffe_row)) (d : store ffe_array) : result (store ffe_array * (list (list Q) * list Z)) :=
  match raw with
  | None => Err FileNotFoundError
  | Some l =>
      let kept := ffe_rows k l in
      let states := map e_values kept in
      let labels := map e_type kept in
      bind (save_parsed no_asarray d (ffe_file k) (OneArray (Profiles states)) false true) (fun d1 =>
      bind (save_parsed no_asarray d1 (ffe_file k ++ "_labels") (OneArray (Labels labels)) false false) (fun d2 =>
      Ok (d2, (states, labels))))
  end.

(** [self._load_parsed_data(name)[0]] as profiles, and the labels. *)
Definition ffe_states (r : result (loaded ffe_array)) : result (list (list Q)) :=
  match r with
  | Ok (LArrays (Profiles p :: _)) => Ok p
  | Ok (LArrays []) => Err IndexError
  | Ok _ => Err TypeError
  | Err e => Err e
  end.
Definition ffe_labels (r : result (loaded ffe_array)) : result (list Z) :=
  match r with
  | Ok (LArray (Labels l)) => Ok l
  | Ok _ => Err TypeError
  | Err e => Err e
  end.

(** Lines 23-66 and 69-104.  [labels] says whether labels are asked for, [watts]
    is [convert_to_watts] (only electric profiles).  Exceptions other than
    FileNotFoundError are refused by [_warn_could_not_load_parsed] (lines
    197-200 of base_loader.py) with a ValueError. *)
Definition load_profiles (pickle : bool) (raw : ffe_kind -> option (list ffe_row)) (k : ffe_kind) (labels watts : bool) (d : store ffe_array) :
  store ffe_array * result (list (list Q) * option (list Z)) :=
  let scale s := match k with Electric => if watts then map (map (fun x => x * 1000)%Q) s else s | Thermal => s end in
  match bind (ffe_states (load_parsed ffe_object pickle d (ffe_file k))) (fun s =>
        if labels then bind (ffe_labels (load_parsed ffe_object pickle d (ffe_file k ++ "_labels"))) (fun l => Ok (s, Some l)) else Ok (s, None)) with
  | Ok (s, l) => (d, Ok (scale s, l))
  | Err FileNotFoundError =>
      match ffe_parse k (raw k) d with
      | Ok (d', (s, l)) => (d', Ok (scale s, if labels then Some l else None))
      | Err e => (d, Err e)
      end
  | Err _ => (d, Err ValueError)
  end.

(** Loads one after the other, each by a loader with or without pickle. *)
Record ffe_call : Type := { c_pickle : bool; c_kind : ffe_kind; c_labels : bool; c_watts : bool }.
Definition ffe_run (raw : ffe_kind -> option (list ffe_row)) (cs : list ffe_call) : store ffe_array :=
  fold_left (fun d c => fst (load_profiles (c_pickle c) raw (c_kind c) (c_labels c) (c_watts c) d)) cs [].

(** Lines 107-136 [load_labels_name]: integers, numbers of other types, texts,
    lists, and dictionaries (iterated by their keys). *)
Inductive label_arg : Type := AInt (z : Z) | ANumpy (z : Z) | AText (s : string) | AList (l : list label_arg) | ADict (keys : list string).
Inductive label_name : Type := NName (s : string) | NNone | NList (l : list label_name).

Definition household_name (z : Z) : label_name :=
  match z with
  | 1%Z => NName "One full-time working person"
  | 2%Z => NName "One pensioneer"
  | 3%Z => NName "Two full-time working persons"
  | 4%Z => NName "Two pensioneers"
  | 5%Z => NName "One full-time and one part-time working person"
  | 6%Z => NName "Two full-time working persons, one child"
  | 7%Z => NName "One full-time and one part-time working person, one child"
  | 8%Z => NName "Two full-time working persons, two children"
  | 9%Z => NName "One full-time and one part-time working person, two children"
  | 10%Z => NName " Two full-time working persons, three children"
  | 11%Z => NName " One full-time and one part-time working person, three children"
  | _ => NNone
  end.

(** A text is iterated by its characters, which are texts again. *)
Definition text_name (s : string) : result label_name := match s with EmptyString => Ok (NList []) | _ => Err RecursionError end.
Fixpoint load_labels_name (a : label_arg) : result label_name :=
  match a with
  | AInt z => Ok (household_name z)
  | ANumpy _ => Ok NNone
  | AText s => text_name s
  | AList l => bind (each load_labels_name l) (fun r => Ok (NList r))
  | ADict keys => bind (each text_name keys) (fun r => Ok (NList r))
  end.

(** ** Measured profiles of a step size (tracebase/loader.py) *)

Section Tracebase.
Context {File Data : Type}.
(** An archive: files by name. *)
Notation archive := (list (string * File)).
(** Lines 144-203: profiles averaged over a number of seconds, and lines 207-251:
    their parts switched on (Trace_Model.v). *)
Variable averaged : archive -> Z -> result Data.
Variable switched_on : Data -> result Data.

(** The zip file, the directory it was extracted to, and the parsed folders. *)
Record trace_disk : Type := mkTrace { t_zip : bool; t_dir : option archive; t_parsed : list (string * list (string * Data)) }.

(** Lines 104-107: [int(step_size.total_seconds())]; the step in microseconds. *)
Definition whole_seconds (step : Z) : Z := Z.quot step 1000000.
Definition folder (version : string) (step : Z) : string :=
  version ++ "_step_size_" ++ str_Z (whole_seconds step) ++ "_seconds".

(** [extractall] overwrites files and keeps the others. *)
Definition extract (old : option archive) (new : archive) : archive :=
  fold_left (fun d kv => dset String.eqb d (fst kv) (snd kv)) new (match old with Some l => l | None => [] end).

(** Lines 92-132: the constructor; base_loader.py lines 87-125 make and clear the
    folder.  [server] is the archive on the server now. *)
Definition make_trace (server : result archive) (version : string) (clear update : bool) (step : Z) (d : trace_disk) : trace_disk * result unit :=
  let f := folder version step in
  let files := match dget String.eqb (t_parsed d) f with Some l => if clear || update then [] else l | None => [] end in
  let parsed := dset String.eqb (t_parsed d) f files in
  if update && negb (t_zip d) then (mkTrace (t_zip d) (t_dir d) parsed, Err FileNotFoundError)
  else if t_zip d && negb update then (mkTrace true (t_dir d) parsed, Ok tt)
  else match server with
       | Ok new => (mkTrace true (Some (extract (t_dir d) new)) parsed, Ok tt)
       | Err e => (mkTrace false (t_dir d) parsed, Err e)
       end.

(** base_loader.py lines 446-491 with lines 134-141 on an object made with this
    version and step size.  The folder of an object exists. *)
Definition files_of (version : string) (step : Z) (d : trace_disk) : list (string * Data) :=
  match dget String.eqb (t_parsed d) (folder version step) with Some l => l | None => [] end.
Definition keep (version : string) (step : Z) (kind : string) (x : Data) (d : trace_disk) : trace_disk :=
  mkTrace (t_zip d) (t_dir d) (dset String.eqb (t_parsed d) (folder version step) (dset String.eqb (files_of version step d) kind x)).

Definition full_profiles (version : string) (step : Z) (d : trace_disk) : trace_disk * result Data :=
  match dget String.eqb (files_of version step d) "full" with
  | Some x => (d, Ok x)
  | None =>
      match t_dir d with
      | None => (d, Err FileNotFoundError)
      | Some a => match averaged a (whole_seconds step) with Ok x => (keep version step "full" x d, Ok x) | Err e => (d, Err e) end
      end
  end.

Definition profiles (version : string) (step : Z) (kind : string) (d : trace_disk) : trace_disk * result Data :=
  if String.eqb kind "full" then full_profiles version step d
  else match dget String.eqb (files_of version step d) kind with
       | Some x => (d, Ok x)
       | None =>
           if String.eqb kind "switchedON" then
             let (d1, r) := full_profiles version step d in
             match bind r switched_on with Ok x => (keep version step kind x d1, Ok x) | Err e => (d1, Err e) end
           else (d, Err NotImplementedError)
       end.

Inductive trace_call : Type :=
| MakeTrace (version : string) (clear update : bool) (step : Z) (server : result archive)
| Profile (version : string) (step : Z) (kind : string).
Definition trace_after (d : trace_disk) (c : trace_call) : trace_disk :=
  match c with
  | MakeTrace version clear update step server => fst (make_trace server version clear update step d)
  | Profile version step kind => fst (profiles version step kind d)
  end.
Definition trace_run (cs : list trace_call) : trace_disk := fold_left trace_after cs (mkTrace false None []).
End Tracebase.
Arguments trace_disk : clear implicits.
Arguments trace_call : clear implicits.

(** ** Remaining caches of base_loader.py *)

(** Contents: json text, one numpy array (given by iterating over it), or named
    arrays.  An array of one number stands for the number. *)
Inductive cache_file : Type := FJson (o : obj) | FBroken | FNpy (o : obj) | FNpz (items : list (string * obj)).
Definition cache : Type := list (string * cache_file).

Inductive kept : Type :=
| Population (kind : string)
| Arma
| Geographic
| Fisher
| CrestLight
| Bulbs
| BulbStats (sg : subgroup)
| BulbsConfig (sg : subgroup)
| Ownership (sg : subgroup)
| Clearness.

(** Lines 368-370, 803, 834, 937, 962, 990, 1033-1036, 1063-1066, 532-542 and
    771; relative to the parsed folder. *)
Definition kept_path (k : kept) : string :=
  match k with
  | Population kind => "population/" ++ kind ++ ".json"
  | Arma => "temperatures_arma.json"
  | Geographic => "geographic_data.json"
  | Fisher => "fisher_lighting.json"
  | CrestLight => "crest_lighting.json"
  | Bulbs => "bulbs.json"
  | BulbStats sg => "bulbs/bulbs_" ++ subgroup_string sg ++ ".json"
  | BulbsConfig sg => "bulbs/bulbs_config_" ++ subgroup_string sg ++ ".npy"
  | Ownership sg => "appliance_ownership/ownership__" ++ subgroup_string (remove_time_attributues sg) ++ ".npz"
  | Clearness => "climate/clearness_tpms.npy"
  end.
(** Lines 772-775. *)
Definition clearness_labels_path : string := "climate/clearness_labels.npy".
Definition clearness_step_path : string := "climate/clearness_step_size.json".

(** What is parsed and returned: an object (a dictionary of the values when there
    are several), a dictionary of arrays, or the clearness. *)
Inductive answer : Type := AObj (o : obj) | ADictionary (items : list (string * obj)) | AClear (tpm labels : obj) (step : Z).

(** Lines 387, 970 and 1006: [make_jsonable] is applied before writing. *)
Definition converts (k : kept) : bool := match k with Population _ | CrestLight | Bulbs => true | _ => false end.

(** The returned value: lines 389-393, 972, 1008-1011. *)
Definition kept_out (k : kept) (o : obj) : result obj :=
  match k with
  | CrestLight => lists_to_numpy_array o
  | Bulbs => match o with ODict items => Ok (ODict (map (fun kv => (fst kv, np_asarray (snd kv))) items)) | _ => Err TypeError end
  | _ => Ok o
  end.

Section Kept.
Variable float_text : Q -> string.
Variable parse : kept -> result answer.

(** One dictionary in a json file: lines 354-393, 797-813, 821-844, 930-947,
    955-972, 980-1011, 1052-1081. *)
Definition fetch_json (k : kept) (d : cache) : cache * result answer :=
  let answer_of o := bind (kept_out k o) (fun x => Ok (AObj x)) in
  match dget String.eqb d (kept_path k) with
  | Some (FJson o) => (d, answer_of o)
  | Some _ => (d, Err ValueError)
  | None =>
      match parse k with
      | Err e => (d, Err e)
      | Ok (AObj o) =>
          match bind (if converts k then make_jsonable o else Ok o) (json_trip float_text) with
          | Ok j => (dset String.eqb d (kept_path k) (FJson j), answer_of o)
          | Err e => (dset String.eqb d (kept_path k) FBroken, Err e)
          end
      | Ok _ => (d, Err TypeError)
      end
  end.

(** Lines 1019-1044 [load_bulbs_config]. *)
Definition fetch_array (k : kept) (d : cache) : cache * result answer :=
  match dget String.eqb d (kept_path k) with
  | Some (FNpy o) => (d, Ok (AObj o))
  | Some _ => (d, Err ValueError)
  | None =>
      match parse k with
      | Err e => (d, Err e)
      | Ok (AObj o) => (dset String.eqb d (kept_path k) (FNpy o), Ok (AObj o))
      | Ok _ => (d, Err TypeError)
      end
  end.

(** Lines 513-551 [load_appliance_ownership_dict]. *)
Definition fetch_arrays (k : kept) (d : cache) : cache * result answer :=
  match dget String.eqb d (kept_path k) with
  | Some (FNpz items) => (d, Ok (ADictionary items))
  | Some _ => (d, Err ValueError)
  | None =>
      match parse k with
      | Err e => (d, Err e)
      | Ok (ADictionary items) => (dset String.eqb d (kept_path k) (FNpz items), Ok (ADictionary items))
      | Ok _ => (d, Err TypeError)
      end
  end.

Definition npy (d : cache) (p : string) : result obj :=
  match dget String.eqb d p with Some (FNpy o) => Ok o | Some _ => Err ValueError | None => Err FileNotFoundError end.
Definition step_json (us : Z) : obj :=
  ODict [(OPy (SStr "days"), OPy (SInt (td_days us))); (OPy (SStr "seconds"), OPy (SInt (td_seconds us))); (OPy (SStr "microseconds"), OPy (SInt (td_micro us)))].
Definition json_step (d : cache) (p : string) : result Z :=
  match dget String.eqb d p with
  | Some (FJson (ODict [(OPy (SStr x), OPy (SInt a)); (OPy (SStr y), OPy (SInt b)); (OPy (SStr z), OPy (SInt c))])) => timedelta_of [(x, a); (y, b); (z, c)]
  | Some _ => Err TypeError
  | None => Err FileNotFoundError
  end.

(** Lines 760-789 [load_clearness_tpms]. *)
Definition fetch_clearness (d : cache) : cache * result answer :=
  match bind (npy d (kept_path Clearness)) (fun t => bind (npy d clearness_labels_path) (fun l => bind (json_step d clearness_step_path) (fun s => Ok (AClear t l s)))) with
  | Ok r => (d, Ok r)
  | Err FileNotFoundError =>
      match parse Clearness with
      | Err e => (d, Err e)
      | Ok (AClear t l s) =>
          (dset String.eqb (dset String.eqb (dset String.eqb d (kept_path Clearness) (FNpy t)) clearness_labels_path (FNpy l)) clearness_step_path (FJson (step_json s)), Ok (AClear t l s))
      | Ok _ => (d, Err TypeError)
      end
  | Err e => (d, Err e)
  end.

Definition fetch (k : kept) (d : cache) : cache * result answer :=
  match k with
  | BulbsConfig _ => fetch_array k d
  | Ownership _ => fetch_arrays k d
  | Clearness => fetch_clearness d
  | _ => fetch_json k d
  end.

Fixpoint fetch_all (ks : list kept) (d : cache) : cache * list (result answer) :=
  match ks with
  | [] => (d, [])
  | k :: ks' => let (d1, a) := fetch k d in let (d2, l) := fetch_all ks' d1 in (d2, a :: l)
  end.
End Kept.
