(** * Model of the construction of the heating simulators
      (demod/simulators/heating_simulators.py:418-552, 703-789, 950-1005,
      1167-1199, 1287-1407, 1649-1714).

    The dictionaries returned by the loaders hold one array per parameter, with one
    entry per type of equipment.  Random numbers are explicit arguments.  Warnings
    and loggers are not represented. *)

From Coq Require Import String List ZArith QArith Bool Arith.
From Verif Require Import Prelude Sampling_Model Heat_Model.
Import ListNotations.
Open Scope string_scope.

(** ** Outcomes: a plain [Exception] is not one of the named exceptions. *)

Inductive raised := Plain | Named (e : py_error).
Inductive outcome (A : Type) := Done (a : A) | Fail (r : raised).
Arguments Done {A} a.
Arguments Fail {A} r.

Definition obind {A B} (x : outcome A) (f : A -> outcome B) : outcome B :=
  match x with Done a => f a | Fail r => Fail r end.
Definition lift {A} (x : result A) : outcome A := match x with Ok a => Done a | Err e => Fail (Named e) end.

(** A dictionary of [load_heating_system_dict] or [load_buildings_dict]: the
    probabilities ('equipped_prob'), the arrays of numbers, of strings and of
    booleans by their names. *)
Record table := Table {
  t_prob : list Q; t_num : list (string * list (option Q));
  t_txt : list (string * list string); t_flag : list (string * list bool) }.

(** [dic\[key\]\[types\]]: the array is read first, then indexed by the array of
    types (nonnegative indexes). *)
Definition entry_of {A} (l : list A) (i : nat) : result A :=
  match nth_error l i with Some v => Ok v | None => Err IndexError end.
Definition column {A} (d : list (string * list A)) (key : string) (types : list nat) : outcome (list A) :=
  match dget String.eqb d key with
  | None => Fail (Named KeyError)
  | Some c => lift (mapM (entry_of c) types)
  end.

(** Lines 458-466 and 1362-1376: the cdf is checked, a ValueError is replaced by a
    plain exception, then one type is drawn per household. *)
Definition assign_types (prob us : list Q) : outcome (list nat) :=
  let cdf := cumsum prob in
  match check_valid_cdf eps_cdf [cdf] with
  | Err ValueError => Fail Plain
  | Err e => Fail (Named e)
  | Ok _ => lift (mc_from_1d_cdf cdf us)
  end.

(** ** Heating systems *)

Record systems := Systems {
  y_types : list nat; y_pump : list (option Q); y_standby : list (option Q); y_flow : list (option Q);
  y_toW : list (option Q); y_fuel : list string; y_sh : list (option Q); y_dhw : list (option Q);
  y_loss : list (option Q); y_C_cyl : list (option Q); y_combi : list bool }.

(** [assign_heating_systems_to_households], lines 1362-1407. *)
Definition assign_systems (t : table) (us : list Q) : outcome systems :=
  obind (assign_types (t_prob t) us) (fun types =>
  obind (column (t_num t) "pump_power" types) (fun pump =>
  obind (column (t_num t) "standby_power" types) (fun standby =>
  obind (column (t_num t) "fuel_flow_rate" types) (fun flow =>
  obind (column (t_num t) "flow_rate_to_W" types) (fun toW =>
  obind (column (t_txt t) "fuel_type" types) (fun fuel =>
  obind (column (t_num t) "heat_output_sh" types) (fun sh =>
  obind (column (t_num t) "heat_output_dhw" types) (fun dhw =>
  obind (column (t_num t) "cyl_loss" types) (fun loss =>
  obind (column (t_num t) "cyl_volume" types) (fun volume =>
  obind (column (t_flag t) "is_combi" types) (fun combi =>
  Done (Systems types pump standby flow toW fuel sh dhw loss (map (fun v => nmul v (Some 4200)) volume) combi)))))))))))).

(** The parameters of household [h], as the per-household model has them. *)
Definition system_at (y : systems) (h : nat) : option hsystem :=
  match nth_error (y_sh y) h, nth_error (y_dhw y) h, nth_error (y_pump y) h, nth_error (y_standby y) h, nth_error (y_flow y) h,
        nth_error (y_toW y) h, nth_error (y_fuel y) h, nth_error (y_combi y) h, nth_error (y_C_cyl y) h, nth_error (y_loss y) h with
  | Some sh, Some dhw, Some pump, Some standby, Some flow, Some toW, Some fuel, Some combi, Some c, Some l =>
      Some (HSystem sh dhw pump standby flow toW fuel combi (Cylinder c l))
  | _, _, _, _, _, _, _, _, _, _ => None
  end.

(** [HeatingSystem.initialize_starting_state], lines 1311-1347, for a household: the
    controls kept, the outputs and the number of steps made.  An argument that is
    missing or an empty dictionary is [None]. *)
Definition system_start (m : hsystem) (k : option controls) (q : option demand) : controls * outputs * nat :=
  let k0 := match k with Some k => k | None => controls_off end in
  match q with
  | Some q => (k0, system_step m k0 q, 1%nat)
  | None => (k0, Outputs (Some 0) (Some 0) (Some 0), 0%nat)
  end.

(** ** Buildings *)

Record stock := Stock {
  b_types : list nat; b_nominal : list (option Q); b_C_em : list (option Q); b_H_em : list (option Q);
  b_C_b : list (option Q); b_C_i : list (option Q); b_H_bi : list (option Q); b_H_ob : list (option Q);
  b_H_v : list (option Q); b_area : list (option Q); b_irr : list (option Q) }.

(** [assign_building_to_households], lines 458-495. *)
Definition assign_buildings (t : table) (us : list Q) : outcome stock :=
  obind (assign_types (t_prob t) us) (fun types =>
  obind (column (t_num t) "emitters_target_temperature" types) (fun nominal =>
  obind (column (t_num t) "emitters_capacitance" types) (fun c_em =>
  obind (column (t_num t) "emitters_transfer_coef" types) (fun h_em =>
  obind (column (t_num t) "ext_capacitance" types) (fun c_b =>
  obind (column (t_num t) "int_capacitance" types) (fun c_i =>
  obind (column (t_num t) "build_int_transfer_coef" types) (fun h_bi =>
  obind (column (t_num t) "out_build_transfer_coef" types) (fun h_ob =>
  obind (column (t_num t) "ventilation_transfer_coef" types) (fun h_v =>
  obind (column (t_num t) "floor_area" types) (fun area =>
  obind (column (t_num t) "irradiance_multiplier" types) (fun irr =>
  Done (Stock types nominal c_em h_em c_b c_i h_bi h_ob h_v area irr)))))))))))).

Definition building_at (s : stock) (h : nat) : option building :=
  match nth_error (b_C_b s) h, nth_error (b_C_i s) h, nth_error (b_C_em s) h, nth_error (b_H_ob s) h, nth_error (b_H_bi s) h,
        nth_error (b_H_v s) h, nth_error (b_H_em s) h, nth_error (b_irr s) h with
  | Some cb, Some ci, Some ce, Some ob, Some bi, Some v, Some em, Some irr => Some (Building cb ci ce ob bi v em irr)
  | _, _, _, _, _, _, _, _ => None
  end.

(** ** Thermostats *)

(** [load_thermostat_dict]. *)
Record thermo := Thermo {
  a_home_cdf : list Q; a_home : list Q; a_water_cdf : list Q; a_water : list Q; a_setpoint : Q; a_bands : bands }.

(** [initialize_target_temperatures], lines 761-786, of all households. *)
Definition assign_targets (a : thermo) (uh uw : list Q) : outcome (list targets) :=
  obind (lift (mc_from_1d_cdf (a_home_cdf a) uh)) (fun r =>
  obind (lift (mapM (entry_of (a_home a)) r)) (fun home =>
  obind (lift (mc_from_1d_cdf (a_water_cdf a) uw)) (fun r2 =>
  obind (lift (mapM (entry_of (a_water a)) r2)) (fun water =>
  Done (map2 (fun h w => Targets (Some h) (Some w) (Some (a_setpoint a))) home water))))).

(** ** The five modules *)

Record heating_data := HData { e_systems : table; e_thermo : thermo; e_buildings : table }.

(** What the five objects keep.  The building and the heat demand have their own
    copies of the cylinders (lines 454-456 and 994-996), the controls of the combi
    flags (lines 1174-1179). *)
Record five := Five {
  f_n : nat; f_dt : Q; f_algo : string; f_system : systems; f_targets : list targets; f_bands : bands;
  f_stock : stock; f_temps : list temps; f_build_cyl : list cylinder; f_demand_cyl : list cylinder;
  f_combi : list bool; f_ext_sys : list bool; f_ext_cyl : list bool; f_cyl_dhw : list (option Q) }.

(** [_read_heating_system], lines 454-456 and 994-996. *)
Definition read_cylinders (y : systems) : list cylinder := map2 Cylinder (y_C_cyl y) (y_loss y).

(** The numbers drawn by array number [i]. *)
Definition block (n i : nat) (us : list Q) : list Q := firstn n (skipn (n * i) us).

(** [FiveModulesHeatingSimulator.__init__], lines 1649-1694.  The six arrays of draws
    follow each other in [us]: types of the systems, home and water targets, types of
    the buildings, room temperatures (np.random.uniform(-1, 1)), cylinder temperatures.
    [dt] is the step size given, in seconds; only the building receives it. *)
Definition five_construct (algo : string) (dt : Q) (outside : option Q) (d : heating_data) (n : nat) (us : list Q) : outcome five :=
  obind (assign_systems (e_systems d) (block n 0 us)) (fun y =>
  obind (assign_targets (e_thermo d) (block n 1 us) (block n 2 us)) (fun g =>
  obind (assign_buildings (e_buildings d) (block n 3 us)) (fun s =>
  let temps := map2 (fun gn uu => initialize_temperatures outside (g_sh (fst gn)) (snd gn) (Some (2 * fst uu - 1)) (Some (snd uu)))
                    (combine g (b_nominal s)) (combine (block n 4 us) (block n 5 us)) in
  Done (Five n dt algo y g (a_bands (e_thermo d)) s temps (read_cylinders y) (read_cylinders y) (y_combi y)
             (repeat false n) (repeat false n) (repeat (Some 0) n))))).

(** Household [h] as the model of the steps has it ([Heat_Model.five_step]): the
    cylinder is that of the building, the combi flag that of the controls. *)
Definition household (f : five) (h : nat) : option (hpar * hstate) :=
  match system_at (f_system f) h, nth_error (f_targets f) h, building_at (f_stock f) h, nth_error (f_temps f) h,
        nth_error (f_build_cyl f) h, nth_error (f_combi f) h, nth_error (f_ext_sys f) h, nth_error (f_ext_cyl f) h, nth_error (f_cyl_dhw f) h with
  | Some m, Some g, Some b, Some t, Some c, Some combi, Some es, Some ec, Some q =>
      let x := five_init (f_algo f) t g in
      Some (HPar (Some (f_dt f)) (f_bands f) b (HSystem (m_sh m) (m_dhw m) (m_pump m) (m_standby m) (m_flow m) (m_toW m) (m_fuel m) combi c),
            HState (x_temps x) (x_targets x) (x_therm x) (x_controls x) (x_demand x) (x_algo x) (x_outputs x) es ec q)
  | _, _, _, _, _, _, _, _, _ => None
  end.

Definition households (f : five) : list (hpar * hstate) :=
  flat_map (fun h => match household f h with Some x => [x] | None => [] end) (seq 0 (f_n f)).

(** [set_external_heating_system], lines 1696-1714, on a household of the running
    simulator: [new] is the household's system in the new [HeatingSystem]. *)
Definition set_external (new : hsystem) (px : hpar * hstate) : hpar * hstate :=
  let '(p, x) := px in
  let m := p_system p in
  (HPar (p_dt p) (p_bands p) (p_building p)
        (HSystem (m_sh m) (m_dhw m) (m_pump m) (m_standby m) (m_flow m) (m_toW m) (m_fuel m) (m_combi new) (m_cyl new)),
   HState (x_temps x) (x_targets x) (x_therm x) (x_controls x) (x_demand x) (x_algo x) (x_outputs x) true (x_ext_cyl x) (x_cyl_dhw x)).

(** ** Reading the power demand

    [get_power_demand] (lines 2016-2022) is a cached getter: the first answer after a
    step is kept until the next step (base_simulators.py:14-36, 520-533).  The pair is
    the simulator and the answer kept. *)
Definition running : Type := list (hpar * hstate) * option (list (option Q)).

Definition ask_power (s : running) : result (list (option Q) * running) :=
  match snd s with
  | Some v => Ok (v, s)
  | None => bind (five_power (fst s)) (fun v => Ok (v, (fst s, Some v)))
  end.

(** Lines 1696-1714: one new system per household. *)
Definition external_system (new : list hsystem) (s : running) : running := (map2 set_external new (fst s), snd s).

(** Lines 1844-1963: a step of all households, one input each. *)
Definition run_step (inputs : list hinput) (s : running) : result running :=
  bind (mapM (fun xi => bind (five_step (fst (fst xi)) (snd (fst xi)) (snd xi)) (fun x => Ok (fst (fst xi), x))) (combine (fst s) inputs))
       (fun l => Ok (l, None)).
