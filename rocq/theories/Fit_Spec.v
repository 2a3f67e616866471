(** * Vocabulary for the statements about the construction of heating simulators. *)

From Coq Require Import String List ZArith QArith Bool Arith.
From Verif Require Import SpecBase Sampling_Spec Law_Spec Heat_Model Heat_Spec Fit_Model.
Import ListNotations.
Open Scope string_scope.

(** Row [i] of the array stored under [key] holds [v]. *)
Definition holds {A} (d : list (string * list A)) (key : string) (i : nat) (v : A) : Prop :=
  exists c, In (key, c) d /\ at_ c i v.

(** The dictionary has arrays of length [k] under all the keys. *)
Definition has_columns {A} (d : list (string * list A)) (k : nat) (keys : list string) : Prop :=
  forall key, In key keys -> (exists c, In (key, c) d) /\ forall c, In (key, c) d -> length c = k.

(** Probabilities accepted by the constructors: not negative, adding up to one with
    an error below one millionth. *)
Definition valid_probabilities (p : list Q) : Prop :=
  p <> [] /\ nonneg p /\ 1 - (1 # 1000000) < total p /\ total p < 1 + (1 # 1000000).

(** The type of number [u]: the one whose share of [0, 1) contains it, in the order of
    the types, and the first one beyond the total. *)
Definition type_of (p : list Q) (u : Q) (i : nat) : Prop :=
  (i < length p)%nat /\ ((mass_before p i <= u /\ u < mass_before p (S i)) \/ (total p <= u /\ i = 0%nat)).

(** All the parameters of a heating system are those of row [i]. *)
Definition system_row (t : table) (i : nat) (m : hsystem) : Prop :=
  holds (t_num t) "heat_output_sh" i (m_sh m) /\ holds (t_num t) "heat_output_dhw" i (m_dhw m) /\
  holds (t_num t) "pump_power" i (m_pump m) /\ holds (t_num t) "standby_power" i (m_standby m) /\
  holds (t_num t) "fuel_flow_rate" i (m_flow m) /\ holds (t_num t) "flow_rate_to_W" i (m_toW m) /\
  holds (t_txt t) "fuel_type" i (m_fuel m) /\ holds (t_flag t) "is_combi" i (m_combi m) /\
  holds (t_num t) "cyl_loss" i (H_loss (m_cyl m)) /\
  exists litres, holds (t_num t) "cyl_volume" i litres /\
    (forall v, val litres v -> val (C_cyl (m_cyl m)) (v * 4200)) /\ (nan litres -> nan (C_cyl (m_cyl m))).

(** All the parameters of a building are those of row [i]. *)
Definition building_row (t : table) (i : nat) (b : building) (nominal area : option Q) : Prop :=
  holds (t_num t) "ext_capacitance" i (C_b b) /\ holds (t_num t) "int_capacitance" i (C_i b) /\
  holds (t_num t) "emitters_capacitance" i (C_em b) /\ holds (t_num t) "out_build_transfer_coef" i (H_ob b) /\
  holds (t_num t) "build_int_transfer_coef" i (H_bi b) /\ holds (t_num t) "ventilation_transfer_coef" i (H_v b) /\
  holds (t_num t) "emitters_transfer_coef" i (H_em b) /\ holds (t_num t) "irradiance_multiplier" i (irr_mult b) /\
  holds (t_num t) "emitters_target_temperature" i nominal /\ holds (t_num t) "floor_area" i area.

(** Complete dictionaries with one row per probability. *)
Definition complete_systems (t : table) : Prop :=
  has_columns (t_num t) (length (t_prob t))
    ["pump_power"; "standby_power"; "fuel_flow_rate"; "flow_rate_to_W"; "heat_output_sh"; "heat_output_dhw"; "cyl_loss"; "cyl_volume"] /\
  has_columns (t_txt t) (length (t_prob t)) ["fuel_type"] /\ has_columns (t_flag t) (length (t_prob t)) ["is_combi"].

Definition complete_buildings (t : table) : Prop :=
  has_columns (t_num t) (length (t_prob t))
    ["emitters_target_temperature"; "emitters_capacitance"; "emitters_transfer_coef"; "ext_capacitance"; "int_capacitance";
     "build_int_transfer_coef"; "out_build_transfer_coef"; "ventilation_transfer_coef"; "floor_area"; "irradiance_multiplier"].

(** Thermostat data: cumulative shares of the home and water temperatures, from the
    shares [ph] and [pw]. *)
Definition running_sums (p c : list Q) : Prop := length c = length p /\ forall i x, at_ c i x -> x == mass_before p (S i).
Definition thermo_ok (a : thermo) (ph pw : list Q) : Prop :=
  ph <> [] /\ is_pdf ph /\ running_sums ph (a_home_cdf a) /\ length (a_home a) = length ph /\
  pw <> [] /\ is_pdf pw /\ running_sums pw (a_water_cdf a) /\ length (a_water a) = length pw.

(** What a complete data set is. *)
Definition complete_data (d : heating_data) (ph pw : list Q) : Prop :=
  valid_probabilities (t_prob (e_systems d)) /\ complete_systems (e_systems d) /\ thermo_ok (e_thermo d) ph pw /\
  valid_probabilities (t_prob (e_buildings d)) /\ complete_buildings (e_buildings d).

(** ** Probabilities *)

(** The share of type [i] in [0, 1): its part of the running sums below one; the first
    type also has what is missing up to one. *)
Definition cap (x : Q) : Q := if Qle_bool 1 x then 1 else x.
Definition share (p : list Q) (i : nat) : Q :=
  (cap (mass_before p (S i)) - cap (mass_before p i)) + (if Nat.eqb i 0 then 1 - cap (total p) else 0).

(** A fuel that the heating system knows. *)
Definition known_fuel (f : string) : Prop := f = "Mainsgas" \/ f = "Electricity".

(** ** External heating systems *)

(** Two states agree in everything but the total output, which is not used. *)
Definition same_but_total (x y : hstate) : Prop :=
  x_temps x = x_temps y /\ x_targets x = x_targets y /\ x_therm x = x_therm y /\ x_controls x = x_controls y /\
  x_demand x = x_demand y /\ x_algo x = x_algo y /\ o_dhw (x_outputs x) = o_dhw (x_outputs y) /\ o_sh (x_outputs x) = o_sh (x_outputs y) /\
  x_ext_cyl x = x_ext_cyl y /\ x_cyl_dhw x = x_cyl_dhw y.

(** An input that gives the heat for water and for space. *)
Definition all_heat_given (i : hinput) : Prop :=
  exists a b, i_dhw i = Some (Some a) /\ i_sh i = Some (Some b) /\ i_heat i = NoHeat.
