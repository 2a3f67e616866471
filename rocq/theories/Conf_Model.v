(** * Model of the configuration tables of the CREST loader
      (demod/datasets/CREST/loader.py:112-159, 496-613, 629-787).

    The sheets of the workbook are given as they are after pandas.read_excel: columns by
    heading.  Skipped rows and the place of the headings in the file are not represented;
    the number of rows read is.  The cells of the columns of shares and of temperatures are
    numbers; the other numeric cells can be empty (NaN).  Warnings are not represented.
    [_parse_controls_tpm] (lines 790-807) stores into a name that is never defined and has
    no caller; it is not modelled. *)

From Coq Require Import String List ZArith QArith Bool Arith.
From Verif Require Import Prelude Sampling_Model Heat_Model Fit_Model Sheet_Model.
Import ListNotations.
Open Scope string_scope.

Record wsheet := WSheet {
  w_share : list (string * list Q); w_num : list (string * list (option Q)); w_txt : list (string * list string) }.

(** [df\[heading\]]. *)
Definition wcol {A} (d : list (string * list A)) (heading : string) : result (list A) :=
  match dget String.eqb d heading with Some c => Ok c | None => Err KeyError end.

(** [df = pd.read_excel(..., nrows=rows)]. *)
Definition cut {A} (n : nat) (d : list (string * list A)) : list (string * list A) :=
  map (fun kc => (fst kc, firstn n (snd kc))) d.
Definition cut_sheet (n : nat) (s : wsheet) : wsheet := WSheet (cut n (w_share s)) (cut n (w_num s)) (cut n (w_txt s)).

(** [np.array(df\["Type of system"\]) == 2], line 660. *)
Definition is_two (x : option Q) : bool := match x with Some q => Qeq_bool q 2 | None => false end.

(** Lines 636-647: number of rows of the sheet PrimaryHeatingSystems. *)
Definition heating_rows (version : string) : result nat :=
  if String.eqb version "v_2.2" then Ok 3%nat
  else if String.eqb version "v_2.3.3" then Ok 5%nat
  else Err NotImplementedError.

(** [_parse_heating_system_dict], lines 629-684. *)
Definition parse_systems (version : string) (s : wsheet) : result table :=
  bind (heating_rows version) (fun rows =>
  let df := cut_sheet rows s in
  bind (wcol (w_share df) "Proportion of dwellings with this heating system") (fun prob =>
  bind (wcol (w_txt df) "Type of heating unit") (fun name =>
  bind (wcol (w_num df) "Type of system") (fun kind =>
  bind (wcol (w_txt df) "Type of fuel") (fun fuel =>
  bind (wcol (w_num df) "Fuel flow rate (nominal)") (fun flow =>
  bind (wcol (w_num df) "Calorific value of fuel flow rate") (fun calorific =>
  bind (wcol (w_num df) "Heat output of unit") (fun output =>
  bind (wcol (w_num df) "Standby power") (fun standby =>
  bind (wcol (w_num df) "Pump power") (fun pump =>
  bind (wcol (w_num df) "DHW cylinder volume") (fun volume =>
  bind (wcol (w_num df) "DHW Tank Heat Loss") (fun loss =>
  Ok (Table prob
        [("fuel_flow_rate", flow); ("flow_rate_to_W", calorific); ("heat_output_sh", output); ("heat_output_dhw", output);
         ("standby_power", standby); ("pump_power", pump); ("cyl_volume", volume); ("cyl_loss", loss)]
        [("name", name); ("fuel_type", map delete_spaces fuel)]
        [("is_combi", map is_two kind)]))))))))))))).

(** [_parse_buildings_dict], lines 735-787: all the rows of the sheet Buildings. *)
Definition parse_buildings (version : string) (df : wsheet) : result table :=
  bind (wcol (w_share df) "Proportion of dwellings of this building type") (fun prob =>
  bind (wcol (w_txt df) "Description") (fun name =>
  bind (wcol (w_num df) "Thermal transfer coefficient between outside air and external building thermal capacitance") (fun ob =>
  bind (wcol (w_num df) "Thermal transfer coefficient between external building thermal capacitance and internal building thermal capacitance") (fun bi =>
  bind (wcol (w_num df) "Thermal transfer coefficient representing ventilation heat loss between outside air and internal building thermal capacitance") (fun vent =>
  bind (wcol (w_num df) "External building thermal capacitance") (fun ext =>
  bind (wcol (w_num df) "Internal building thermal capacitance") (fun int =>
  bind (wcol (w_num df) "Global irradiance multiplier") (fun irr =>
  bind (wcol (w_num df) "Floor area, living space") (fun area =>
  bind (wcol (w_num df) "Height, living space") (fun height =>
  bind (wcol (w_num df) "Nominal temperature of emitters ") (fun nominal =>
  bind (wcol (w_num df) (if String.prefix "v_2." version then "Heat transfer coefficient of emitters"
                         else "Heat transfer coefficient of heat emitters")) (fun em =>
  bind (wcol (w_num df) "Thermal capacitance of emitters") (fun em_cap =>
  Ok (Table prob
        [("out_build_transfer_coef", ob); ("build_int_transfer_coef", bi); ("ventilation_transfer_coef", vent);
         ("ext_capacitance", ext); ("int_capacitance", int); ("irradiance_multiplier", irr); ("floor_area", area);
         ("height", height); ("emitters_target_temperature", nominal); ("emitters_transfer_coef", em);
         ("emitters_capacitance", em_cap)]
        [("name", name)] [])))))))))))))).

(** [_parse_thermostat_dict], lines 687-733: the two tables of the sheet HeatingControls.
    The deadband of the cooling (line 728) is read by no simulator and has no place in
    [bands]. *)
Definition parse_thermostat (home water : list (string * list Q)) : result thermo :=
  let df_home := cut 15 home in
  let df_water := cut 12 water in
  bind (wcol df_home "Percentage of homes") (fun ph =>
  bind (wcol df_home "Demand temperature") (fun th =>
  bind (wcol df_water "Percentage of homes") (fun pw =>
  bind (wcol df_water "Hot water delivery temperature") (fun tw =>
  Ok (Thermo (cumsum ph) th (cumsum pw) tw 50 (Bands (Some 2) (Some 5) (Some 5))))))).

(** The dictionaries of one workbook, in the order in which the five modules ask for them. *)
Record workbook := Workbook {
  k_systems : wsheet; k_home : list (string * list Q); k_water : list (string * list Q); k_buildings : wsheet }.
Definition crest_heating (version : string) (k : workbook) : result heating_data :=
  bind (parse_systems version (k_systems k)) (fun y =>
  bind (parse_thermostat (k_home k) (k_water k)) (fun a =>
  bind (parse_buildings version (k_buildings k)) (fun b => Ok (HData y a b)))).

(** ** Climate *)

Record place := Place { pl_country : string; pl_latitude : Q; pl_longitude : Q; pl_meridian : Q; pl_dst : bool }.

(** [_parse_geographic_data], lines 496-517. *)
Definition geographic (version : string) : result place :=
  if String.eqb version "v_2.2" then Ok (Place "england" (528 # 10) (- 12 # 10) 0 true)
  else if String.eqb version "v_2.3.3" then Ok (Place "india" (131 # 10) (803 # 10) (825 # 10) false)
  else Err NotImplementedError.

Record arma := Arma { ar_mean : Q; ar_std : Q; ar_shift : Q; ar_AR : Q; ar_MA : Q; ar_SD : Q }.

(** [_parse_temperatures_arma], lines 519-534. *)
Definition temperatures (version : string) : result arma :=
  if String.eqb version "v_2.2" then Ok (Arma (93 # 10) (65 # 10) (-115) (81 # 100) (62 # 100) (5 # 10))
  else Err NotImplementedError.

(** ** Lighting *)

(** [_parse_bulbs_config], lines 536-556: [df.to_numpy()\[:100, 2:40\]]. *)
Definition bulbs_config {A} (version : string) (df : list (list A)) : result (list (list A)) :=
  if String.eqb version "v_2.2" || String.eqb version "v_2.3.3"
  then Ok (map (fun row => firstn (40 - 2) (skipn 2 row)) (firstn 100 df))
  else Err NotImplementedError.

(** The sheet light_config, read with four different rows as headings: [l_at23] and [l_at3]
    are the headings of these rows, taken as numbers. *)
Record light_sheet := LightSheet {
  l_at23 : list Q; l_at35 : list (string * list Q); l_at53 : list (string * list Q); l_at3 : list Q }.

Record lighting := Lighting {
  g_scalar : Q; g_occupancy : list Q; g_durations_cdf : list Q; g_low : list Q; g_high : list Q;
  g_threshold_mean : Q; g_threshold_std : Q }.

(** [_parse_crest_lighting], lines 558-613. *)
Definition parse_lighting (version : string) (s : light_sheet) : result lighting :=
  bind (if String.eqb version "v_2.2" then entry_of (l_at23 s) 5
        else if String.eqb version "v_2.3.3" then entry_of (l_at23 s) 6
        else Err NotImplementedError) (fun scalar =>
  bind (wcol (l_at35 s) "occupancy") (fun occ =>
  bind (wcol (l_at53 s) "probability") (fun prob =>
  bind (wcol (l_at53 s) "(minutes)") (fun low =>
  bind (wcol (l_at53 s) "(minutes).1") (fun high =>
  bind (entry_of (l_at3 s) 5) (fun mean =>
  bind (entry_of (l_at3 s) 6) (fun std =>
  Ok (Lighting scalar (firstn 6 occ) (firstn 9 prob) (firstn 9 low) (firstn 9 high) mean std)))))))).

(** ** Population *)

(** [_parse_population_subgroups], lines 112-159, of the two columns of the sheet
    ActivityStats (numbers of residents are given as numbers); the subgroups are the numbers
    of residents.  The file exists. *)
Definition population (version kind : string) (df : list (string * list Q)) : result (list Q * list Q * Q) :=
  if String.eqb kind "crest" || String.eqb kind "resident_number" then
    let df := cut 5 df in
    bind (if String.eqb version "v_2.3.3" then wcol df "Probability of dwelling having this number of residents, in the UK"
          else if String.eqb version "v_2.2" then wcol df "Probability of dwelling having this number of residents"
          else Err ValueError) (fun pdf =>
    bind (wcol df "Number of residents") (fun residents =>
    Ok (residents, pdf, 25000000)))
  else Err ValueError.
