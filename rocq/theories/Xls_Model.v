(** * Model of the lighting tables of the Excel input file
      (demod/datasets/ExcellInputFile/loader.py:38-47, 87-149).

    The sheets are given as they are after pandas.read_excel, as in the area Conf; the cells
    of the sheet of the bulbs are of any type.  [_read_tou_loader] (lines 49-56) reads a
    sheet and gives nothing; it is not modelled. *)

From Coq Require Import String List ZArith QArith Bool Arith.
From Verif Require Import Prelude Sampling_Model Fit_Model Sheet_Model Conf_Model.
Import ListNotations.
Open Scope string_scope.

(** [__init__], lines 38-47: [here] is the folder of the module, [sep] is os.sep and
    [is_file] is os.path.isfile. *)
Definition input_path (here sep : string) (is_file : string -> bool) (path : option string) : result string :=
  let p := match path with None => here ++ sep ++ "inputs.xlsx" | Some p => p end in
  if is_file p then Ok p else Err FileNotFoundError.

(** [load_crest_lighting], lines 87-133, of the sheet Lighting. *)
Definition input_lighting (s : light_sheet) : result lighting :=
  bind (entry_of (l_at23 s) 5) (fun scalar =>
  bind (wcol (l_at35 s) "occupancy") (fun occ =>
  bind (wcol (l_at53 s) "probability") (fun prob =>
  bind (wcol (l_at53 s) "(minutes)") (fun low =>
  bind (wcol (l_at53 s) "(minutes).1") (fun high =>
  bind (entry_of (l_at3 s) 5) (fun mean =>
  bind (entry_of (l_at3 s) 6) (fun std =>
  Ok (Lighting scalar (firstn 6 occ) (firstn 9 prob) (firstn 9 low) (firstn 9 high) mean std)))))))).

(** [load_bulbs], lines 135-142: the rows below heading 75 of the sheet Lighting; the power
    comes first. *)
Definition input_bulbs {A} (df : list (string * list A)) : result (list A * list A) :=
  bind (wcol df "Penetration") (fun penetration =>
  bind (wcol df "Consumption[W]") (fun consumption =>
  Ok (consumption, penetration))).

(** [load_bulbs_config], lines 144-149: [df.to_numpy()\[:, 2:\]]. *)
Definition input_bulbs_config {A} (df : list (list A)) : list (list A) := map (skipn 2) df.
