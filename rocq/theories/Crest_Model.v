(** * The data of the CREST spreadsheet (datasets/CREST/loader.py).

    Sheets are inputs: tables of numbers.  Reading the spreadsheet, warnings and
    the storage of parsed data are not modelled here. *)

From Coq Require Import String List ZArith QArith Bool Arith.
From Verif Require Import Prelude Sampling_Model Subgroup_Model Appliance_Model.
Import ListNotations.
Open Scope string_scope.

(** ** Transition matrices *)

(** CREST/loader.py lines 169-190 [_check_crest_subgroup]. *)
Definition check_crest_subgroup (sg : subgroup) : result unit :=
  match get sg "n_residents", get sg "weekday" with
  | Some n, Some w =>
      if negb (value_eqb w week) && negb (value_eqb w week_end) then Err ValueError
      else match n with
           | VInt z => if existsb (Z.eqb z) [1; 2; 3; 4; 5; 6]%Z then Ok tt else Err ValueError
           | VInts _ => Err ValueError
           end
  | _, _ => Err ValueError
  end.

(** CREST/loader.py lines 192-201 [_subgroup_to_daytype]. *)
Definition day_type (sg : subgroup) : result string :=
  bind (subscript sg "weekday") (fun w =>
  if value_eqb w week then Ok "d" else if value_eqb w week_end then Ok "e" else Err ValueError).

(** [reshape]: the flat array in rows of [w]. *)
Fixpoint chunks {A} (n w : nat) (l : list A) : list (list A) :=
  match n with O => [] | S n' => firstn w l :: chunks n' w (skipn w l) end.

(** Line 253, the columns of the states, and line 254, [reshape(144, n, n)].  The
    number of times is an argument. *)
Definition state_columns (n : nat) (sheet : list (list Q)) : list (list Q) := map (fun row => firstn n (skipn 2 row)) sheet.
Definition reshape_tpm (times n : nat) (sheet : list (list Q)) : result (list (list (list Q))) :=
  let flat := concat (state_columns n sheet) in
  if Nat.eqb (length flat) (times * (n * n)) then Ok (map (chunks n n) (chunks times (n * n) flat)) else Err ValueError.

(** Lines 260-262: rows of zeros stay in their state. *)
Fixpoint put (l : list Q) (i : nat) (v : Q) : list Q :=
  match l, i with
  | [], _ => []
  | _ :: t, O => v :: t
  | x :: t, S j => x :: put t j v
  end.
Fixpoint stay_from (i : nat) (m : list (list Q)) : list (list Q) :=
  match m with
  | [] => []
  | row :: t => (if Qeq_bool (qsum row) 0 then put row i 1 else row) :: stay_from (S i) t
  end.
Definition stay (m : list (list Q)) : list (list Q) := stay_from 0 m.

(** Line 265: [rescale_pdf] on the rows of all matrices, whose shape is
    restored. *)
Definition rescale_3d (n : nat) (tpms : list (list (list Q))) : result (list (list (list Q))) :=
  bind (rescale_pdf (1 # 10) (concat tpms)) (fun rows => Ok (chunks (length tpms) n rows)).

(** Lines 287-292: positions of the states of [n] residents in the list of the
    states of six. *)
Definition start_mask (n : nat) : list nat := flat_map (fun k => map (fun j => j + 7 * k)%nat (seq 0 (n + 1))) (seq 0 (n + 1)).
Definition take_at {A} (l : list A) (i : nat) : result A := match nth_error l i with Some x => Ok x | None => Err IndexError end.

(** The spreadsheet: its transition sheets by name (a missing one is a
    ValueError of pandas), and for each day type the column of starting
    probabilities of [n] residents (line 293, a KeyError if missing) and the
    column of labels (lines 295-297). *)
Record workbook := {
  wb_sheet : string -> option (list (list Q));
  wb_start : string -> nat -> option (list Q);
  wb_labels : string -> list Z
}.

Definition sheet_name (n : nat) (day : string) : string := "tpm" ++ str_of_nat n ++ "_w" ++ day.

(** CREST/loader.py lines 240-299 [_parse_tpm]. *)
Definition parse_tpm (times : nat) (wb : workbook) (sg : subgroup) : result (list (list (list Q)) * list Z * list Q) :=
  bind (day_type sg) (fun day =>
  bind (subscript sg "n_residents") (fun v =>
  match v with
  | VInts _ => Err TypeError
  | VInt z =>
      let n := Z.to_nat z in
      let states := ((n + 1) * (n + 1))%nat in
      match wb_sheet wb (sheet_name n day) with
      | None => Err ValueError
      | Some sheet =>
          bind (reshape_tpm times states sheet) (fun tpms =>
          bind (rescale_3d states (map stay tpms)) (fun tpms =>
          match wb_start wb day n with
          | None => Err KeyError
          | Some column =>
              bind (mapM (take_at column) (start_mask n)) (fun start =>
              bind (mapM (take_at (wb_labels wb day)) (start_mask n)) (fun labels =>
              Ok (tpms, labels, start)))
          end))
      end
  end)).

(** CREST/loader.py lines 203-238 [load_tpm], without the parsed files. *)
Definition load_tpm (times : nat) (wb : workbook) (sg : subgroup) : result (list (list (list Q)) * list Z * list Q) :=
  bind (check_crest_subgroup sg) (fun _ => parse_tpm times wb sg).

(** ** Appliances *)

(** utils/parse_helpers.py lines 298-308 [translate_1d]. *)
Definition translate_1d (table : list (string * string)) (l : list string) : result (list string) :=
  mapM (fun x => match dget String.eqb table x with Some y => Ok y | None => Err KeyError end) l.

(** CREST/utils.py lines 11-20. *)
Definition activity_table : list (string * string) :=
  [("LEVEL", "level"); ("ACTIVE_OCC", "active_occupancy"); ("ACT_IRON", "ironing"); ("ACT_HOUSECLEAN", "cleaning");
   ("ACT_TV", "watching_tv"); ("ACT_COOKING", "cooking"); ("ACT_LAUNDRY", "laundry"); ("ACT_WASHDRESS", "self_washing")].

(** CREST/utils.py lines 30-66. *)
Definition appliance_table : list (string * string) :=
  [("CHEST_FREEZER", "chest_freezer"); ("FRIDGE_FREEZER", "fridge_freezer"); ("FRIDGE", "fridge"); ("UPRIGHT_FREEZER", "upright_freezer");
   ("ANSWER_MACHINE", "answermachine_phone"); ("CD_PLAYER", "cd_speaker"); ("CLOCK", "clock"); ("PHONE", "fixed_phone");
   ("HIFI", "hifi_speaker"); ("IRON", "iron"); ("VACUUM", "vacuum_cleaner"); ("FAX", "fax_printer"); ("PC", "fixed_computer");
   ("PRINTER", "printer"); ("TV1", "tv"); ("TV2", "tv"); ("TV3", "tv"); ("VCR_DVD", "dvd_console"); ("RECEIVER", "dual_box");
   ("HOB", "hob"); ("OVEN", "oven"); ("MICROWAVE", "microwave"); ("KETTLE", "kettle"); ("SMALL_COOKING", "toaster");
   ("DISH_WASHER", "dishwasher"); ("TUMBLE_DRYER", "tumble_dryer"); ("WASHING_MACHINE", "washingmachine"); ("WASHER_DRYER", "washer_dryer");
   ("DESWH", "des_water_heater"); ("E_INST", "einst_water_heater"); ("ELEC_SHOWER", "electric_shower"); ("BASIN", "basin");
   ("SINK", "sink"); ("SHOWER", "shower"); ("BATH", "bath")].

(** One row of the sheet; a missing power factor is [None]. *)
Record app_row := { r_name : string; r_prob : Q; r_profile : string; r_duration : Q; r_delay : Q; r_switch_on : Q; r_power : Q; r_standby : Q; r_factor : option Q }.

Record app_dict := {
  a_name : list string; a_type : list string; a_prob : list Q; a_activity : list string; a_switch_off : list bool;
  a_duration : list Q; a_delay : list Q; a_switch_on : list Q; a_elec : list Q; a_water : list Q; a_standby : list Q; a_factor : list Q;
  a_number : nat; a_lambda : list Q; a_uses_water : list bool
}.

(** [x[-k] = v]. *)
Definition set_back (l : list Q) (k : nat) (v : Q) : result (list Q) :=
  if (length l <? k)%nat then Err IndexError else Ok (put l (length l - k) v).
(** [x[-4:] = v] and [x[:-4] = v]. *)
Definition set_last4 {A} (l : list A) (v : A) : list A := List.app (firstn (length l - 4) l) (repeat v (length l - (length l - 4))).
Definition set_but4 {A} (l : list A) (v : A) : list A := List.app (repeat v (length l - 4)) (skipn (length l - 4) l).

(** CREST/loader.py lines 301-377 [_parse_appliance_dict].  The third argument of
    [np.logical_or] on lines 333-337 is its output array: the comparison with
    "DISH_WASHER" is overwritten. *)
Definition appliance_dict (version : string) (rows : list app_row) : result app_dict :=
  if negb (String.eqb version "v_2.2") then Err NotImplementedError
  else
    bind (translate_1d appliance_table (map r_name rows)) (fun types =>
    bind (translate_1d activity_table (map r_profile rows)) (fun activities =>
    let off := map (fun r => if String.eqb (r_profile r) "ACT_WASHDRESS" || String.eqb (r_profile r) "LEVEL" then false else true) rows in
    let power := map r_power rows in
    let water := set_but4 power 0 in
    bind (set_back (map (fun _ => 0) water) 1 (733 # 10)) (fun l1 =>
    bind (set_back l1 2 (257 # 10)) (fun l2 =>
    bind (set_back l2 3 (23 # 10)) (fun l3 =>
    bind (set_back l3 4 (23 # 10)) (fun l4 =>
    Ok {| a_name := map r_name rows; a_type := types; a_prob := map r_prob rows; a_activity := activities; a_switch_off := off;
          a_duration := map r_duration rows; a_delay := map r_delay rows; a_switch_on := map r_switch_on rows;
          a_elec := set_last4 power 0; a_water := water; a_standby := map r_standby rows;
          a_factor := map (fun r => match r_factor r with Some f => f | None => 1 end) rows;
          a_number := length rows; a_lambda := l4; a_uses_water := set_last4 (repeat false (length rows)) true |})))))).

(** ** Ownership *)

(** CREST/loader.py lines 453-457: the first free name; [fuel] bounds the while
    loop, running out of it is reported as RecursionError. *)
Fixpoint free_name (fuel : nat) (d : list (string * Q)) (t : string) (counter : nat) (temp : string) : result string :=
  if dmem String.eqb d temp then
    match fuel with
    | O => Err RecursionError
    | S f => free_name f d t (S counter) (t ++ "_" ++ str_of_nat (S counter))
    end
  else Ok temp.

(** CREST/loader.py lines 439-461 [_parse_appliance_ownership_dict]: [zip] of the
    types and the probabilities. *)
Fixpoint ownership_loop (d : list (string * Q)) (l : list (string * Q)) : result (list (string * Q)) :=
  match l with
  | [] => Ok d
  | (t, p) :: rest => bind (free_name (length d) d t 1 t) (fun name => ownership_loop (dset String.eqb d name p) rest)
  end.
Definition crest_ownership (types : list string) (probs : list Q) : result (list (string * Q)) := ownership_loop [] (combine types probs).

(** ** Activity profiles *)

(** [np.array(df).T] flattened, for a table of [w] columns. *)
Definition transposed_flat (w : nat) (rows : list (list Q)) : list Q :=
  flat_map (fun j => flat_map (fun row => match nth_error row j with Some x => [x] | None => [] end) rows) (seq 0 w).

(** Lines 404-426; the first axis is time, the second the number of active
    occupants, the third the activity.  The sheet has 144 columns, 6 occupancies
    and 6 activities. *)
Definition reshape3 (nt no na : nat) (flat : list Q) : result (list (list (list Q))) :=
  if Nat.eqb (length flat) (nt * (no * na)) then Ok (map (chunks no na) (chunks nt (no * na) flat)) else Err ValueError.
Definition with_level (pdf : list (list (list Q))) : list (list (list Q)) := map (map (fun row => List.app row [1])) pdf.
Definition with_active (pdf : list (list (list Q))) : list (list (list Q)) :=
  map (fun m => match m with [] => [] | row :: t => List.app row [0] :: map (fun row => List.app row [1]) t end) pdf.

(** [np.moveaxis(pdf, -1, 0)]: one profile per activity. *)
Definition profile_of (pdf : list (list (list Q))) (a : nat) : list (list Q) :=
  map (fun m => flat_map (fun row => match nth_error row a with Some x => [x] | None => [] end) m) pdf.

(** A dictionary comprehension: later keys replace earlier ones. *)
Fixpoint dict_of {V} (d : list (string * V)) (l : list (string * V)) : list (string * V) :=
  match l with [] => d | (k, v) :: t => dict_of (dset String.eqb d k v) t end.

(** CREST/loader.py lines 379-437 [_parse_activity_profiles]; [week_rows] and
    [end_rows] are the two tables of the sheet, [labels] the (upper case) names
    of the activities. *)
Definition activity_profiles (nt no na : nat) (week_rows end_rows : list (list Q)) (labels : list string) (sg : subgroup) :
  result (list (string * list (list Q))) :=
  bind (check_weekend_day_format sg) (fun _ =>
  bind (is_weekday sg) (fun wd =>
  let rows := if wd then week_rows else end_rows in
  bind (reshape3 nt no na (transposed_flat nt rows)) (fun pdf =>
  let pdf := with_active (with_level pdf) in
  bind (translate_1d activity_table (List.app labels ["LEVEL"; "ACTIVE_OCC"])) (fun names =>
  Ok (dict_of [] (combine names (map (profile_of pdf) (seq 0 (na + 2))))))))).

(** ** Bulbs *)

(** [np.unique(..., return_counts=True)]. *)
Fixpoint count_in (x : Q) (l : list (Q * nat)) : list (Q * nat) :=
  match l with
  | [] => [(x, 1%nat)]
  | (y, n) :: t =>
      match (x ?= y)%Q with
      | Eq => (y, S n) :: t
      | Lt => (x, 1%nat) :: (y, n) :: t
      | Gt => (y, n) :: count_in x t
      end
  end.
Definition unique_counts (l : list Q) : list (Q * nat) := fold_left (fun acc x => count_in x acc) l [].

Definition is_bulb (s : option Q) : list Q := match s with Some x => if Qltb 0 x then [x] else [] | None => [] end.

(** utils/parse_helpers.py lines 401-426 [bulbs_stats_from_config]; NaN sockets
    are [None].  The mean of no houses is NaN, [None].  Instead of the standard
    deviation the model gives its square. *)
Definition mean_n (l : list Q) : option Q := match l with [] => None | _ => Some (qsum l / inject_Z (Z.of_nat (length l))) end.
Definition bulbs_stats (config : list (list (option Q))) : (option Q * option Q) * (list Q * list Q) :=
  let n_bulbs := map (fun house => inject_Z (Z.of_nat (length (flat_map is_bulb house)))) config in
  let m := mean_n n_bulbs in
  let var := match m with None => None | Some mu => mean_n (map (fun x => (x - mu) * (x - mu)) n_bulbs) end in
  let u := unique_counts (flat_map (flat_map is_bulb) config) in
  let sum := qsum (map (fun c => inject_Z (Z.of_nat (snd c))) u) in
  ((m, var), (map fst u, map (fun c => inject_Z (Z.of_nat (snd c)) / sum) u)).

(** ** Clearness and washing profiles *)

(** CREST/loader.py lines 463-494 [_parse_clearness_tpms]; labels are an input. *)
Definition clearness_tpm (version : string) (sheet : list (list Q)) : result (list (list Q)) :=
  if String.eqb version "v_2.2" || String.eqb version "v_2.3.3" then
    match sheet with
    | row :: t => if (length row <? 2)%nat then Err IndexError else rescale_pdf (1 # 10) (put row 1 1 :: t)
    | [] => Err IndexError
    end
  else Err NotImplementedError.

(** CREST/loader.py lines 830-871 [_compute_washing_machine_power]: the masks are
    disjoint, so that the assignments are a case distinction. *)
Definition washing_power (t : Z) : Q :=
  if (t <=? 8)%Z then 73 else if (t <=? 29)%Z then 2056 else if (t <=? 81)%Z then 73 else if (t <=? 92)%Z then 73
   else if (t <=? 94)%Z then 250 else if (t <=? 105)%Z then 73 else if (t <=? 107)%Z then 250 else if (t <=? 118)%Z then 73
   else if (t <=? 120)%Z then 250 else if (t <=? 131)%Z then 73 else if (t <=? 133)%Z then 250 else if (t <=? 138)%Z then 568
   else if (t <=? 198)%Z then 2500 else 0.

(** CREST/loader.py lines 809-828 [_parse_real_profiles_dict]. *)
Definition washing_profiles (kind : string) : result (list (string * list (string * list Q))) :=
  if negb (String.eqb kind "switchedON") then Err NotImplementedError
  else
    let profile n := map (fun k => washing_power (Z.of_nat k)) (seq 0 n) in
    Ok [("washingmachine", [("CREST_washingmachine", profile 138%nat)]); ("washer_dryer", [("CREST_washer_dryer", profile 198%nat)])].
