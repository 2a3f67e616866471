(** * Specification of the configuration tables of CREST. *)

From Coq Require Import String List ZArith QArith Bool Arith.
From Verif Require Import SpecBase Sampling_Spec Sheet_Spec Heat_Model Heat_Spec Fit_Model Fit_Spec Conf_Model.
Import ListNotations.
Open Scope string_scope.

(** Every heading occurs once. *)
Definition once {A} (d : list (string * list A)) : Prop := NoDup (map fst d).
Definition sheet_once (s : wsheet) : Prop := once (w_share s) /\ once (w_num s) /\ once (w_txt s).

(** The versions of CREST with heating systems, and how many systems they have. *)
Inductive systems_of : string -> nat -> Prop :=
| Three : systems_of "v_2.2" 3
| Five_ : systems_of "v_2.3.3" 5.

(** The heading under which every parameter is found. *)
Definition system_headings : list (string * string) :=
  [("heat_output_sh", "Heat output of unit"); ("heat_output_dhw", "Heat output of unit"); ("pump_power", "Pump power");
   ("standby_power", "Standby power"); ("fuel_flow_rate", "Fuel flow rate (nominal)");
   ("flow_rate_to_W", "Calorific value of fuel flow rate"); ("cyl_volume", "DHW cylinder volume"); ("cyl_loss", "DHW Tank Heat Loss")].

Definition building_headings : list (string * string) :=
  [("ext_capacitance", "External building thermal capacitance"); ("int_capacitance", "Internal building thermal capacitance");
   ("emitters_capacitance", "Thermal capacitance of emitters");
   ("out_build_transfer_coef", "Thermal transfer coefficient between outside air and external building thermal capacitance");
   ("build_int_transfer_coef", "Thermal transfer coefficient between external building thermal capacitance and internal building thermal capacitance");
   ("ventilation_transfer_coef", "Thermal transfer coefficient representing ventilation heat loss between outside air and internal building thermal capacitance");
   ("irradiance_multiplier", "Global irradiance multiplier"); ("emitters_target_temperature", "Nominal temperature of emitters ");
   ("floor_area", "Floor area, living space"); ("height", "Height, living space")].

(** Second versions call the coefficient of the emitters otherwise than later ones. *)
Inductive emitters_heading : string -> string -> Prop :=
| Second : forall rest, emitters_heading ("v_2." ++ rest) "Heat transfer coefficient of emitters"
| Later : forall v, (forall rest, v <> "v_2." ++ rest) -> emitters_heading v "Heat transfer coefficient of heat emitters".

(** The headings without which a table cannot be read. *)
Definition systems_need (s : wsheet) (k : nat) : Prop :=
  has_columns (w_share s) k ["Proportion of dwellings with this heating system"] /\
  has_columns (w_txt s) k ["Type of heating unit"; "Type of fuel"] /\
  has_columns (w_num s) k ("Type of system" :: map snd system_headings).
Definition buildings_need (version : string) (s : wsheet) (k : nat) : Prop :=
  has_columns (w_share s) k ["Proportion of dwellings of this building type"] /\
  has_columns (w_txt s) k ["Description"] /\
  has_columns (w_num s) k (map snd building_headings) /\
  forall heading, emitters_heading version heading -> has_columns (w_num s) k [heading].

(** The first [n] entries of a column. *)
Definition top {A} (d : list (string * list A)) (heading : string) (n : nat) (l : list A) : Prop :=
  (forall i v, at_ l i v <-> (i < n)%nat /\ holds d heading i v).
