(** * Model of the heating simulators
      (demod/simulators/heating_simulators.py:382-2041,
       demod/simulators/util.py:18-58).

    Every array operation of these classes is elementwise, so the model follows
    one household; the only operation that looks at all households at once,
    [get_fuel_consumptions], takes the list of them.  Array shapes are taken to
    match.  Temperatures are in degrees, powers in W, capacities in J/K. *)

From Coq Require Import String List ZArith QArith Bool.
From Verif Require Import Prelude Sampling_Model.
Import ListNotations.

Open Scope Q_scope.

(** ** Floating point values

    [None] is a value that is not a finite number: numpy's nan.  Infinities,
    which numpy produces by dividing a non-zero number by zero, are not told
    apart from nan. *)
Notation num := (option Q) (only parsing).
Definition nop (f : Q -> Q -> Q) (a b : option Q) : option Q :=
  match a, b with Some x, Some y => Some (f x y) | _, _ => None end.
Definition nadd := nop Qplus.
Definition nsub := nop Qminus.
Definition nmul := nop Qmult.
Definition ndiv (a b : option Q) : option Q :=
  match a, b with Some x, Some y => if Qeq_bool y 0 then None else Some (x / y) | _, _ => None end.
Definition nopp (a : option Q) : option Q := option_map Qopp a.
(** Comparisons with nan are false. *)
Definition nlt (a b : option Q) : bool := match a, b with Some x, Some y => Qltb x y | _, _ => false end.
Definition nle (a b : option Q) : bool := match a, b with Some x, Some y => Qle_bool x y | _, _ => false end.
Definition is_nan (a : option Q) : bool := match a with None => true | Some _ => false end.
(** [np.clip(x, lo, hi)] is [minimum(maximum(x, lo), hi)], nan if any of them is. *)
Definition qmin (a b : Q) : Q := if Qle_bool a b then a else b.
Definition qmax (a b : Q) : Q := if Qle_bool a b then b else a.
Definition nclip (x lo hi : option Q) : option Q := nop qmin (nop qmax x lo) hi.
(** A boolean in an arithmetic expression. *)
Definition nbool (b : bool) : option Q := Some (if b then 1 else 0).
Definition nwhere (c : bool) (a b : option Q) : option Q := if c then a else b.

Declare Scope num_scope.
Infix "+!" := nadd (at level 50, left associativity) : num_scope.
Infix "-!" := nsub (at level 50, left associativity) : num_scope.
Infix "*!" := nmul (at level 40, left associativity) : num_scope.
Infix "/!" := ndiv (at level 40, left associativity) : num_scope.
Open Scope num_scope.

(** ** util.py *)

(** util.py lines 18-38 [assign_external_array] for one household: no array, or
    an entry that may be nan. *)
Definition assign_external (base : option Q) (ext : option (option Q)) : option Q :=
  match ext with
  | None => base
  | Some e => if is_nan e then base else e
  end.

(** ** Temperatures and thermostats *)

(** heating_simulators.py lines 501-552: the temperatures of a household. *)
Record temps := Temps { T_b : option Q; T_i : option Q; T_em : option Q; T_cyl : option Q; T_cold : option Q }.

(** Target temperatures, lines 761-786. *)
Record targets := Targets { g_sh : option Q; g_dhw : option Q; g_em : option Q }.
Record bands := Bands { d_sh : option Q; d_hw : option Q; d_em : option Q }.
Record tstates := TStates { s_hw : bool; s_sh : bool; s_em : bool }.

(** heating_simulators.py lines 501-552 [initialize_temperatures]: [u1] is the
    number drawn between -1 and 1, [u2] between 0 and 1. *)
Definition initialize_temperatures (outside target nominal u1 u2 : option Q) : temps :=
  let interior := target +! u1 in
  Temps ((outside +! target) /! Some 2) interior (nwhere (nle target interior) interior nominal)
        (Some 50 +! Some 2 *! u2) (Some 10).

(** heating_simulators.py lines 761-786 [initialize_target_temperatures], the
    draws being arguments; [home_values\[r\]] may be out of range. *)
Definition pick (cdf : list Q) (values : list Q) (u : Q) : result Q :=
  bind (mc_one cdf u) (fun r => match nth_error values r with Some v => Ok v | None => Err IndexError end).
Definition initialize_targets (home_cdf home_values water_cdf water_values : list Q) (setpoint : Q) (u_home u_water : Q) : result targets :=
  bind (pick home_cdf home_values u_home) (fun h =>
  bind (pick water_cdf water_values u_water) (fun w =>
  Ok (Targets (Some h) (Some w) (Some setpoint)))).

(** heating_simulators.py lines 716-759 [Thermostats.initialize_starting_state]. *)
Definition thermostats_init (g : targets) (initial : option temps) : tstates :=
  match initial with
  | None => TStates (nlt (g_dhw g) (g_dhw g)) (nlt (g_sh g) (g_sh g)) (nlt (g_em g) (g_em g))
  | Some t => TStates (nlt (T_cyl t) (g_dhw g)) (nlt (T_i t) (g_sh g)) (nlt (T_em t) (g_em g))
  end.

(** The [target_temperatures] argument: an array, a dictionary, or something else. *)
Inductive new_target := TArray (v : option Q) | TDict (d : list (string * option Q)) | TOther.

(** heating_simulators.py lines 791-809 [set_new_target_temperature]. A key
    other than the three in use is stored and never read. *)
Definition set_target (g : targets) (kv : string * option Q) : targets :=
  if String.eqb (fst kv) "space_heating" then Targets (snd kv) (g_dhw g) (g_em g)
  else if String.eqb (fst kv) "dhw" then Targets (g_sh g) (snd kv) (g_em g)
  else if String.eqb (fst kv) "emitter" then Targets (g_sh g) (g_dhw g) (snd kv)
  else g.
Definition set_new_target (g : targets) (t : new_target) : result targets :=
  match t with
  | TDict d => Ok (fold_left set_target d g)
  | TArray v => Ok (Targets v (g_dhw g) (g_em g))
  | TOther => Err TypeError
  end.

(** heating_simulators.py lines 840-860 (and 862-882, 884-904): one thermostat. *)
Definition thermostat (on : bool) (t target band : option Q) : bool :=
  (on && nlt t (target +! band)) || (negb on && nle t (target -! band)).

(** heating_simulators.py lines 811-906 [Thermostats.step]. *)
Definition thermostats_step (d : bands) (g : targets) (s : tstates) (t : temps) (new : option new_target) : result (targets * tstates) :=
  bind (match new with None => Ok g | Some n => set_new_target g n end) (fun g' =>
  Ok (g', TStates (thermostat (s_hw s) (T_cyl t) (g_dhw g') (d_hw d))
                  (thermostat (s_sh s) (T_i t) (g_sh g') (d_sh d))
                  (thermostat (s_em s) (T_em t) (g_em g') (d_em d)))).

(** ** Building *)

Record building := Building {
  C_b : option Q; C_i : option Q; C_em : option Q;
  H_ob : option Q; H_bi : option Q; H_v : option Q; H_em : option Q; irr_mult : option Q }.
(** The part of the heating system the building reads, lines 454-456. *)
Record cylinder := Cylinder { C_cyl : option Q; H_loss : option Q }.
Record outputs := Outputs { o_dhw : option Q; o_sh : option Q; o_total : option Q }.
Record gains := Gains { w_out : option Q; w_irr : option Q; w_dhw : option Q; w_occ : option Q; w_light : option Q; w_app : option Q }.

(** heating_simulators.py lines 555-643 [BuildingThermalDynamics.step]. *)
Definition building_step (dt : option Q) (b : building) (c : cylinder) (t : temps) (w : gains) (o : outputs) : temps :=
  let phi_s := w_irr w *! irr_mult b in
  let phi_c := w_occ w +! w_light w +! w_app w in
  (* 604-608 *)
  let d_b := (dt /! C_b b) *! (nopp (H_ob b +! H_bi b) *! T_b t +! H_bi b *! T_i t +! H_ob b *! w_out w) in
  (* 611-620 *)
  let d_i := (dt /! C_i b) *! (H_bi b *! T_b t -! (H_v b +! H_bi b +! H_em b +! H_loss c) *! T_i t
               +! H_v b *! w_out w +! H_em b *! T_em t +! H_loss c *! T_cyl t +! phi_s +! phi_c) in
  (* 623-627 *)
  let d_e := (dt /! C_em b) *! (H_em b *! T_i t -! H_em b *! T_em t +! o_sh o) in
  (* 630-635 *)
  let d_c := (dt /! C_cyl c) *! (H_loss c *! T_i t -! (H_loss c +! w_dhw w) *! T_cyl t +! w_dhw w *! T_cold t +! o_dhw o) in
  Temps (T_b t +! d_b) (T_i t +! d_i) (T_em t +! d_e) (T_cyl t +! d_c) (T_cold t).

(** ** Heat demand *)

Record demand := Demand { q_dhw : option Q; q_sh : option Q }.

(** heating_simulators.py lines 1007-1029
    [_compute_target_heat_output_hot_water]. *)
Definition demand_hot_water (dt : option Q) (d : bands) (c : cylinder) (t : temps) (g : targets) (dhw : option Q) : option Q :=
  let target := g_dhw g +! d_hw d in
  C_cyl c /! dt *! (target -! T_cyl t) +! dhw *! (T_cyl t -! T_cold t) +! H_loss c *! (T_cyl t -! T_i t).

(** heating_simulators.py lines 1036-1047, algorithm 'heat_max_emmiters'. *)
Definition demand_emitters (dt : option Q) (d : bands) (b : building) (t : temps) (g : targets) : option Q :=
  let target := g_em g +! d_em d in
  C_em b /! dt *! (target -! T_em t) +! H_em b *! (T_em t -! T_i t).

(** heating_simulators.py line 1005 and lines 1068-1080, algorithm
    'room_estimation'. *)
Definition H_ibo (b : building) : option Q := Some 1 /! (Some 1 /! H_bi b +! Some 1 /! H_ob b).
Definition demand_room (dt : option Q) (d : bands) (b : building) (t : temps) (g : targets) (outside : option Q) : option Q :=
  C_i b /! dt *! (g_sh g +! d_sh d -! T_i t) -! H_em b *! (T_em t -! T_i t)
  +! H_v b *! (T_i t -! outside) +! H_ibo b *! (T_i t -! outside).

(** heating_simulators.py lines 1031-1088
    [_compute_target_heat_output_space_heating]: without outside temperature the
    algorithm is changed for good.  Returns the demand and the algorithm. *)
Definition demand_space (algo : string) (dt : option Q) (d : bands) (b : building) (t : temps) (g : targets) (outside : option (option Q))
  : result (option Q * string) :=
  if String.eqb algo "heat_max_emmiters" then Ok (demand_emitters dt d b t g, algo)
  else if String.eqb algo "room_estimation" then
    match outside with
    | None => Ok (demand_emitters dt d b t g, "heat_max_emmiters"%string)
    | Some o => Ok (demand_room dt d b t g o, algo)
    end
  else Err ValueError.

(** heating_simulators.py lines 1090-1124 [HeatDemand.step]. *)
Definition demand_step (algo : string) (dt : option Q) (d : bands) (b : building) (c : cylinder) (t : temps) (g : targets)
  (dhw : option Q) (outside : option (option Q)) : result (demand * string) :=
  let hw := demand_hot_water dt d c t g dhw in
  bind (demand_space algo dt d b t g outside) (fun x => Ok (Demand hw (fst x), snd x)).

(** ** Controls *)

Record controls := Controls { k_on : bool; k_hw : bool; k_sh : bool }.
Definition controls_off : controls := Controls false false false.

(** heating_simulators.py lines 1201-1250 [SystemControls.step]. *)
Definition controls_step (combi ext_cyl : bool) (dhw : option Q) (s : tstates) : controls :=
  let hw := if combi || ext_cyl then nlt (Some 0) dhw else s_hw s in
  let sh := s_sh s && s_em s in
  Controls (hw || sh) hw sh.

(** ** Heating system *)

Record hsystem := HSystem {
  m_sh : option Q; m_dhw : option Q; m_pump : option Q; m_standby : option Q;
  m_flow : option Q; m_toW : option Q; m_fuel : string; m_combi : bool; m_cyl : cylinder }.

(** heating_simulators.py lines 1396-1401: the cylinder of the system from its
    volume (litres) and loss. *)
Definition cylinder_of (volume loss : option Q) : cylinder := Cylinder (volume *! Some 4200) loss.

(** heating_simulators.py lines 1499-1572 [HeatingSystem.step]. *)
Definition system_step (m : hsystem) (k : controls) (q : demand) : outputs :=
  let zero := Some 0 in
  let req_dhw := nclip (q_dhw q) zero (m_dhw m) in
  let dhw := nwhere (k_on k && k_hw k) req_dhw zero in
  let remaining := nclip (m_sh m -! req_dhw) zero (m_sh m) in
  let sh1 := nwhere (k_on k && k_hw k && k_sh k) (nclip (q_sh q) zero remaining) zero in
  let sh2 := nwhere (k_on k && negb (k_hw k) && k_sh k) (nclip (q_sh q) zero (m_sh m)) sh1 in
  Outputs dhw sh2 (sh2 +! dhw).

(** heating_simulators.py lines 1413-1426 [get_pumps_power_consumptions]. *)
Definition pump_power (m : hsystem) (k : controls) : option Q := nwhere (k_sh k) (m_pump m) (m_standby m).

(** heating_simulators.py lines 1428-1467 [get_fuel_consumptions].  A household
    is its system, the controls stored at the last step and its outputs. *)
Record heated := Heated { h_sys : hsystem; h_ctl : controls; h_out : outputs }.
Definition load_fraction (h : heated) : option Q :=
  o_sh (h_out h) /! m_sh (h_sys h) +! o_dhw (h_out h) /! m_dhw (h_sys h).
Definition heating_occurs (h : heated) : bool :=
  k_on (h_ctl h) && (nlt (Some 0) (m_sh (h_sys h)) || nlt (Some 0) (m_dhw (h_sys h))).
Definition fuel_of (fuel : string) (h : heated) : option Q :=
  let factor := if String.eqb fuel "Mainsgas" then Some 3600 else Some 1000 in
  nwhere (String.eqb (m_fuel (h_sys h)) fuel && heating_occurs h) (m_flow (h_sys h) *! factor *! load_fraction h) (Some 0).
(** [for h_type in np.unique(fuel_types)]: the order of the keys is not
    represented (first occurrence first). *)
Fixpoint fuel_types (l : list heated) : list string :=
  match l with
  | [] => []
  | h :: t => m_fuel (h_sys h) :: filter (fun f => negb (String.eqb f (m_fuel (h_sys h)))) (fuel_types t)
  end.
Definition fuel_consumptions (l : list heated) : result (list (string * list (option Q))) :=
  mapM (fun f => if String.eqb f "Mainsgas" || String.eqb f "Electricity"
                 then Ok (f, map (fuel_of f) l) else Err ValueError) (fuel_types l).

(** [fuel_cons\[key\] if key in fuel_cons else 0]. *)
Definition fuel_or_zero (d : list (string * list (option Q))) (l : list heated) (f : string) : list (option Q) :=
  match dget String.eqb d f with Some v => v | None => map (fun _ => Some 0) l end.
Fixpoint pumps (l : list heated) : list (option Q) :=
  match l with [] => [] | h :: t => pump_power (h_sys h) (h_ctl h) :: pumps t end.

(** heating_simulators.py lines 1486-1497 [get_power_demand]. *)
Definition system_power (l : list heated) : result (list (option Q)) :=
  bind (fuel_consumptions l) (fun d => Ok (map2 nadd (pumps l) (fuel_or_zero d l "Electricity"))).

(** heating_simulators.py lines 1469-1484 [get_energy_consumption]. *)
Definition system_energy (l : list heated) : result (list (option Q)) :=
  bind (fuel_consumptions l) (fun d =>
  let gas := map2 (fun g h => g /! m_flow (h_sys h) *! m_toW (h_sys h)) (fuel_or_zero d l "Mainsgas") l in
  Ok (map2 nadd (map2 nadd (pumps l) (fuel_or_zero d l "Electricity")) gas)).

(** ** The five modules together *)

(** heating_simulators.py lines 1716-1772 [_split_heat_outputs_dhw_sh]. *)
Definition split_heat (heat : option Q) (k : controls) (q : demand) : option Q * option Q :=
  let zero := Some 0 in
  let req_dhw := nclip (q_dhw q) zero heat in
  let dhw := nwhere (k_on k && k_hw k) req_dhw zero in
  let remaining := heat -! req_dhw in
  let sh1 := nwhere (k_on k && k_hw k && k_sh k) (nclip (q_sh q) zero remaining) zero in
  let sh2 := nwhere (k_on k && negb (k_hw k) && k_sh k) (nclip (q_sh q) zero heat) sh1 in
  (dhw +! (heat -! sh2 -! dhw), sh2).

(** The [external_heat_outputs] argument. *)
Inductive ext_heat := NoHeat | HeatArray (v : option Q) | HeatDict (d : list (string * option Q)).

(** heating_simulators.py lines 1798-1842 [_assign_external_heat_outputs]. *)
Definition external_outputs (k : controls) (q : demand) (e : ext_heat) (dhw sh : option (option Q)) : list (string * option Q) :=
  let d0 := match e with
            | HeatDict d => d
            | HeatArray v => let '(a, b) := split_heat v k q in [("dhw", a); ("space_heating", b)]%string
            | NoHeat => []
            end in
  let d1 := match dhw with Some v => dset String.eqb d0 "dhw"%string v | None => d0 end in
  match sh with Some v => dset String.eqb d1 "space_heating"%string v | None => d1 end.

(** heating_simulators.py lines 1774-1796 [_set_external_heating_systems]. *)
Definition has_external (d : list (string * option Q)) : bool :=
  let given k := match dget String.eqb d k with Some v => negb (is_nan v) | None => false end in
  given "dhw"%string || given "space_heating"%string.

(** util.py lines 41-58 [assign_external_dict] on the heat outputs.  The
    dictionary changed is the one stored in the heating system. *)
Definition set_output (o : outputs) (kv : string * option Q) : result outputs :=
  let v base := assign_external base (Some (snd kv)) in
  if String.eqb (fst kv) "dhw" then Ok (Outputs (v (o_dhw o)) (o_sh o) (o_total o))
  else if String.eqb (fst kv) "space_heating" then Ok (Outputs (o_dhw o) (v (o_sh o)) (o_total o))
  else if String.eqb (fst kv) "total" then Ok (Outputs (o_dhw o) (o_sh o) (v (o_total o)))
  else Err KeyError.
Fixpoint set_outputs (o : outputs) (d : list (string * option Q)) : result outputs :=
  match d with [] => Ok o | kv :: t => bind (set_output o kv) (fun o' => set_outputs o' t) end.

(** Fixed parameters of a household: the demand simulator is built without the
    step size and keeps its default of one minute (lines 1681-1687). *)
Record hpar := HPar { p_dt : option Q; p_bands : bands; p_building : building; p_system : hsystem }.
Definition demand_dt : option Q := Some 60.

Record hstate := HState {
  x_temps : temps; x_targets : targets; x_therm : tstates; x_controls : controls;
  x_demand : demand; x_algo : string; x_outputs : outputs;
  x_ext_sys : bool; x_ext_cyl : bool; x_cyl_dhw : option Q }.

Record hinput := HInput {
  i_gains : gains; i_target : option new_target; i_heat : ext_heat;
  i_dhw : option (option Q); i_sh : option (option Q); i_cyl : option (option Q) }.

(** heating_simulators.py lines 1649-1694 [__init__] once the sub-simulators
    have drawn their parameters. *)
Definition five_init (algo : string) (t : temps) (g : targets) : hstate :=
  HState t g (thermostats_init g None) controls_off (Demand (Some 0) (Some 0)) algo (Outputs (Some 0) (Some 0) (Some 0)) false false (Some 0).

(** heating_simulators.py lines 1965-1975 [_compute_dhw_external_cyl], with the
    temperatures after the step (the same dictionary). *)
Definition external_cyl_demand (c : cylinder) (t : temps) (dhw target : option Q) : option Q :=
  dhw *! (target -! T_cold t) +! H_loss c *! (T_cyl t -! T_i t).

(** heating_simulators.py lines 1844-1963 [step]. *)
Definition five_step (p : hpar) (x : hstate) (i : hinput) : result hstate :=
  let c := m_cyl (p_system p) in
  let w := i_gains i in
  (* 1899-1906: with the controls and the demand of the previous step *)
  let ext := external_outputs (x_controls x) (x_demand x) (i_heat i) (i_dhw i) (i_sh i) in
  let ext_sys := has_external ext in
  (* 1908-1913 *)
  let t0 := x_temps x in
  let t := Temps (T_b t0) (T_i t0) (T_em t0) (assign_external (T_cyl t0) (i_cyl i)) (T_cold t0) in
  (* 1916-1921 *)
  bind (thermostats_step (p_bands p) (x_targets x) (x_therm x) t (i_target i)) (fun gs =>
  let '(g, s) := gs in
  (* 1923-1927 *)
  let k := controls_step (m_combi (p_system p)) (x_ext_cyl x) (w_dhw w) s in
  (* 1928-1933 *)
  bind (demand_step (x_algo x) demand_dt (p_bands p) (p_building p) c t g (w_dhw w) (Some (w_out w))) (fun qa =>
  let '(q, algo) := qa in
  (* 1934-1937 *)
  let o := system_step (p_system p) k q in
  (* 1940-1942 *)
  bind (set_outputs o ext) (fun o' =>
  (* 1944-1952 *)
  let t' := building_step (p_dt p) (p_building p) c t w o' in
  (* 1955-1961 *)
  let '(ext_cyl, cyl_dhw) :=
    match i_cyl i with
    | None => (x_ext_cyl x, x_cyl_dhw x)
    | Some v => (negb (is_nan v), external_cyl_demand c t' (w_dhw w) (g_dhw g))
    end in
  Ok (HState t' g s k q algo o' ext_sys ext_cyl cyl_dhw)))).

(** heating_simulators.py lines 1989-2014: [get_dhw_heat_demand],
    [get_sh_heat_demand] and 1981-1987 [get_total_heat_demand]. *)
Definition dhw_heat_demand (x : hstate) : option Q :=
  if x_ext_cyl x then x_cyl_dhw x *! nbool (k_hw (x_controls x)) else q_dhw (x_demand x) *! nbool (k_hw (x_controls x)).
Definition sh_heat_demand (x : hstate) : option Q := q_sh (x_demand x) *! nbool (k_sh (x_controls x)).
Definition total_heat_demand (x : hstate) : option Q := nbool (k_on (x_controls x)) *! (dhw_heat_demand x +! sh_heat_demand x).

(** heating_simulators.py lines 2016-2022 [get_power_demand] of all households. *)
Definition five_power (l : list (hpar * hstate)) : result (list (option Q)) :=
  bind (system_power (map (fun x => Heated (p_system (fst x)) (x_controls (snd x)) (x_outputs (snd x))) l)) (fun v =>
  Ok (map2 (fun x p => nwhere (x_ext_sys (snd x)) (Some 0) p) l v)).
