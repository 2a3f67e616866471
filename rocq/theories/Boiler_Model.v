(** * The older heating simulators of demod/simulators/crest_simulators.py:
    [HeatingControlsSimulator] (lines 947-1240) and [HeatingSystemSimulator] (1243-1686).

    Array operations are elementwise: dwellings are followed one by one, and the timers, which
    share a table, as a list.  Draws and the readings of the CSV files are arguments.  Numbers
    that are not finite are [None], as in [Heat_Model]. *)

From Coq Require Import String List ZArith QArith Bool Arith.
From Verif Require Import Prelude Sampling_Model Appliance_Model Heat_Model.
Import ListNotations.

Open Scope Q_scope.

(** ** Controls *)

(** State of one dwelling.  The set point of the rooms is [None] for minus infinity. *)
Record dwelling := Dwelling {
  w_delay : Z;             (* delays *)
  w_timer : nat;           (* space_heating_timers_states, 0 or 1 *)
  w_hwtimer : bool;        (* hot_water_timers_states *)
  w_home : option Q;       (* space_heating_setpoints *)
  w_water : Q;             (* hot_water_setpoints *)
  w_emit : Q;              (* emitter_setpoints *)
  w_combi : bool;          (* is_combi_boiler *)
  w_states : tstates       (* thermostat_states *)
}.

(** Comparisons with a set point; everything is above minus infinity. *)
Definition below (t : Q) (set : option Q) : bool := match set with None => false | Some x => Qltb t x end.
Definition at_most (t : Q) (set : option Q) : bool := match set with None => false | Some x => Qle_bool t x end.

(** crest_simulators.py lines 1034-1067 [assign_controls_to_households] for one dwelling:
    [uh], [uw] are the draws of the set points, [d] the delay drawn by randint(-15, 15). *)
Definition assign_setpoints (home_cdf home_values water_cdf water_values : list Q) (has : bool) (uh uw : Q) :
  result (option Q * Q) :=
  bind (mc_one home_cdf uh) (fun r => bind (vget home_values r) (fun h =>
  bind (mc_one water_cdf uw) (fun r' => bind (vget water_values r') (fun w =>
  Ok (if has then Some h else None, w))))).

(** crest_simulators.py lines 1075-1110 [initialize_heating_controls] for one dwelling: [iso] is
    [isoweekday()] of the date given, [u] the draw of the timer.  The list of line 1094 is used
    as a cumulative distribution. *)
Definition initial_timer (iso : Z) (u : Q) : result nat :=
  let prob_on := if Z.leb iso 5 then 9 # 100 else 10 # 100 in
  mc_one [prob_on; 1 - prob_on] u.
Definition initial_states (home : option Q) (water emit : Q) (cyl room em : Q) : tstates :=
  TStates (Qltb cyl water) (below room home) (Qltb em emit).

(** The simulator: the tables of the half hours of the kind of day of the start (line 1100),
    how many have been taken from the cycle, [current_cdf] once it exists, the dwellings. *)
Record ctl := Ctl {
  x_tables : list (list (list Q)); x_seen : nat; x_cur : option (list (list Q)); x_houses : list dwelling }.

Definition new_ctl (wd we : list (list (list Q))) (iso : Z) (houses : list dwelling) : ctl :=
  Ctl (if Z.leb iso 5 then wd else we) 0 None houses.

(** [date_time.minute] of a date in microseconds. *)
Definition minute_of (now : Z) : Z := (now / 60000000) mod 60.

(** crest_simulators.py lines 1112-1134 [update_control_states]; [now] is [self.date_time],
    [u i] the draw of dwelling i. *)
Definition set_timer (h : dwelling) (t : nat) : dwelling :=
  Dwelling (w_delay h) t true (w_home h) (w_water h) (w_emit h) (w_combi h) (w_states h).
Definition update_house (table : list (list Q)) (m : Z) (u : Q) (h : dwelling) : result dwelling :=
  bind (if Z.eqb (w_delay h) m then bind (vget table (w_timer h)) (fun row => mc_one row u) else Ok (w_timer h))
       (fun t => Ok (set_timer h t)).
Definition update_controls (c : ctl) (now : Z) (u : nat -> Q) : result ctl :=
  let m := (minute_of now mod 30)%Z in
  bind (if Z.eqb m 0 then
          match nth_error (x_tables c) (x_seen c mod List.length (x_tables c)) with
          | Some t => Ok (S (x_seen c), Some t)
          | None => Err StopIteration
          end
        else Ok (x_seen c, x_cur c)) (fun sc =>
  match snd sc with
  | None => Err AttributeError                                   (* no current_cdf *)
  | Some table =>
      bind (mapM (fun ih : nat * dwelling => update_house table (m - 15) (u (fst ih)) (snd ih))
                 (combine (seq 0 (List.length (x_houses c))) (x_houses c))) (fun hs =>
      Ok (Ctl (x_tables c) (fst sc) (Some table) hs))
  end).

(** crest_simulators.py lines 1141-1207: one thermostat. *)
Definition old_thermostat (on : bool) (t : Q) (set : option Q) (band : Q) : bool :=
  (on && below t (option_map (fun x => x + band) set)) || (negb on && at_most t (option_map (fun x => x - band) set)).

(** crest_simulators.py lines 1136-1240 [calculate_control_states] for one dwelling; the dead
    bands are 5 for water and emitters, 2 for rooms (lines 994-999). *)
Definition calculate_controls (h : dwelling) (cyl room em demand : Q) : dwelling * controls :=
  let s := TStates (old_thermostat (s_hw (w_states h)) cyl (Some (w_water h)) 5)
                   (old_thermostat (s_sh (w_states h)) room (w_home h) 2)
                   (old_thermostat (s_em (w_states h)) em (Some (w_emit h)) 5) in
  let water := if w_combi h then Qltb 0 demand else w_hwtimer h && s_hw s in
  let space := negb (Nat.eqb (w_timer h) 0) && s_sh s && s_em s in
  (Dwelling (w_delay h) (w_timer h) (w_hwtimer h || w_combi h) (w_home h) (w_water h) (w_emit h) (w_combi h) s,
   Controls (water || space) water space).

(** Lines 1235-1240: the dictionary returned. *)
Definition controls_dict (k : controls) : list (string * bool) :=
  [("heater on", k_on k); ("heat water on", k_hw k); ("space heating on", k_sh k)]%string.

(** crest_simulators.py lines 1069-1073 [change_space_heating_setpoints]. *)
Definition change_setpoints (houses : list dwelling) (new : list Q) : result (list dwelling) :=
  if negb (Nat.eqb (List.length new) (List.length houses)) then Err AssertionError else
  Ok (map2 (fun h x => Dwelling (w_delay h) (w_timer h) (w_hwtimer h) (Some x) (w_water h) (w_emit h) (w_combi h) (w_states h)) houses new).

(** ** Heating system *)

(** crest_simulators.py lines 1368-1377 [__init__]: the methods it calls on itself, and the
    ones which the class and its base have (lines 1244-1686; base_simulators.py:429-543). *)
Definition init_calls : list string :=
  ["read_heating_system"; "read_buildings"; "assign_heating_systems_to_households";
   "assign_building_to_households"; "initialize_temperatures"]%string.
Definition system_methods : list string :=
  ["CRESTDATA_read_buildings"; "GERMANY_read_buildings"; "read_buildings"; "__init__";
   "assign_heating_systems_to_households"; "assign_building_to_households";
   "get_target_heat_output_hot_water"; "get_target_heat_output_space_heating";
   "get_pumps_power_consumptions"; "get_fuel_consumptions"; "update_heat_output";
   "initialize_temperatures"; "update_temperatures"; "initialize_starting_state"; "step"]%string.
(** [extra] are methods added by a child class. *)
Definition construct_system (extra : list string) : result unit :=
  fold_left (fun r name => bind r (fun _ => if existsb (String.eqb name) (system_methods ++ extra) then Ok tt else Err AttributeError))
            init_calls (Ok tt).

(** The part of the heating system of a dwelling that is read, lines 1379-1421. *)
Record osystem := OSystem {
  y_pump : option Q; y_standby : option Q; y_flow : option Q; y_fuel : string; y_heat : option Q (* dblPhi_h *);
  y_cyl : cylinder }.

(** Lines 1409-1413: capacity of the cylinder, and 1415-1421: kinds of systems. *)
Definition old_cylinder (volume loss : option Q) : cylinder := Cylinder (volume *! Some 4200) loss.
Definition is_combi (kind : Z) : bool := Z.eqb kind 2.
Definition has_system (kind : Z) : bool := negb (Z.eqb kind 4).

(** crest_simulators.py lines 1466-1484 and 1486-1498: targets. *)
Definition old_target_water (dt : option Q) (c : cylinder) (t : temps) (set dhw : option Q) : option Q :=
  C_cyl c /! dt *! (set -! T_cyl t) +! dhw *! (T_cyl t -! T_cold t) +! H_loss c *! (T_cyl t -! T_i t).
Definition old_target_space (dt : option Q) (b : building) (nominal : option Q) (t : temps) : option Q :=
  let target := nominal +! Some 5 in
  C_em b /! dt *! (target -! T_em t) +! H_em b *! (T_em t -! T_i t).

(** crest_simulators.py lines 1540-1589 [update_heat_output], the targets being computed. *)
Definition old_output (heat : option Q) (k : controls) (tw ts : option Q) : outputs :=
  let water := nclip tw (Some 0) heat in
  let w := nwhere (k_on k && k_hw k) water (Some 0) in
  let s1 := nwhere (k_on k && k_hw k && k_sh k) (nclip ts (Some 0) (heat -! water)) (Some 0) in
  let s := nwhere (k_on k && negb (k_hw k)) (nclip ts (Some 0) heat) s1 in
  Outputs w s (s +! w).

(** [heating_controls\[key\]]. *)
Definition control (d : list (string * bool)) (key : string) : result bool :=
  match dget String.eqb d key with Some b => Ok b | None => Err KeyError end.

(** crest_simulators.py lines 1500-1511 [get_pumps_power_consumptions]. *)
Definition old_pump (m : osystem) (d : list (string * bool)) : result (option Q) :=
  bind (control d "space_thermostat") (fun a => bind (control d "space_timer") (fun b =>
  let p := nwhere (a && b) (y_pump m) (y_standby m) in
  bind (control d "heater on") (fun on => Ok (nwhere on (y_pump m) p)))).

(** crest_simulators.py lines 1513-1538 [get_fuel_consumptions], after a call of
    update_heat_output; [np.unique] is a list of the types without repetition. *)
Record fired := Fired { f_sys : osystem; f_ctl : list (string * bool); f_total : option Q }.
Definition old_fuel_of (fuel : string) (h : fired) : result (option Q) :=
  bind (control (f_ctl h) "heater on") (fun on =>
  let occurs := on && nlt (Some 0) (y_heat (f_sys h)) in
  let factor := if String.eqb fuel "Mains gas" then y_flow (f_sys h) else y_flow (f_sys h) *! Some 1000 in
  Ok (nwhere (String.eqb (y_fuel (f_sys h)) fuel && occurs) (factor *! f_total h /! y_heat (f_sys h)) (Some 0))).
Fixpoint old_fuel_types (l : list fired) : list string :=
  match l with
  | [] => []
  | h :: t => y_fuel (f_sys h) :: filter (fun f => negb (String.eqb f (y_fuel (f_sys h)))) (old_fuel_types t)
  end.
Definition old_fuels (l : list fired) : result (list (string * list (option Q))) :=
  mapM (fun f => if String.eqb f "Mains gas" || String.eqb f "Electricity"
                 then bind (mapM (old_fuel_of f) l) (fun v => Ok (f, v)) else Err ValueError) (old_fuel_types l).

(** crest_simulators.py lines 1591-1611 [initialize_temperatures] for one dwelling, with draws
    between 0 and 1. *)
Definition old_temperatures (outside ub ui uc : option Q) : temps :=
  let room := Some 2 *! ui +! nclip outside (Some 16) (Some 25) in
  Temps (Some 2 *! ub +! nop qmax (Some 16) outside) room room (Some 60 +! Some 2 *! uc) (Some 10).

(** crest_simulators.py lines 1613-1686 [update_temperatures]. *)
Definition old_update (dt : option Q) (b : building) (c : cylinder) (t : temps) (w : gains) (o : outputs) : temps :=
  let phi_s := w_irr w *! irr_mult b in
  let phi_c := w_occ w +! w_light w +! w_app w in
  let d_b := (dt /! C_b b) *! (nopp (H_ob b +! H_bi b) *! T_b t +! H_bi b *! T_i t +! H_ob b *! w_out w) in
  let d_i := (dt /! C_i b) *! (H_bi b *! T_b t -! (H_v b +! H_bi b +! H_em b +! H_loss c) *! T_i t
               +! H_v b *! w_out w +! H_em b *! T_em t +! H_loss c *! T_cyl t +! phi_s +! phi_c) in
  let d_e := (dt /! C_em b) *! (H_em b *! T_i t -! H_em b *! T_em t +! o_sh o) in
  let d_c := (dt /! C_cyl c) *! (H_loss c *! T_i t -! (H_loss c +! w_dhw w) *! T_cyl t +! w_dhw w *! T_cold t +! o_dhw o) in
  Temps (T_b t +! d_b) (T_i t +! d_i) (T_em t +! d_e) (T_cyl t +! d_c) (T_cold t).
