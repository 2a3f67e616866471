(** * Vocabulary for the statements about heating. *)

From Coq Require Import String List QArith Bool.
From Verif Require Import Prelude SpecBase Heat_Model.
Import ListNotations.

Open Scope Q_scope.

(** A value of the program is the number [q]. *)
Definition val (a : option Q) (q : Q) : Prop := exists v, a = Some v /\ v == q.
Definition nan (a : option Q) : Prop := a = None.

(** Smaller and larger of two numbers. *)
Definition is_min (a b m : Q) : Prop := m <= a /\ m <= b /\ (m == a \/ m == b).
Definition is_max (a b m : Q) : Prop := a <= m /\ b <= m /\ (m == a \/ m == b).

(** ** The physics of one household *)

(** Temperatures of walls, room, emitters, cylinder and cold water. *)
Record temp5 := T5 { t_b : Q; t_i : Q; t_e : Q; t_c : Q; t_w : Q }.
Definition temps_are (t : temps) (v : temp5) : Prop :=
  val (T_b t) (t_b v) /\ val (T_i t) (t_i v) /\ val (T_em t) (t_e v) /\ val (T_cyl t) (t_c v) /\ val (T_cold t) (t_w v).

(** Heat capacities and transfer coefficients. *)
Record house := House { cb : Q; ci : Q; ce : Q; cc : Q; h_ob : Q; h_bi : Q; h_v : Q; h_em : Q; h_loss : Q; h_irr : Q }.
Definition house_is (b : building) (c : cylinder) (h : house) : Prop :=
  val (C_b b) (cb h) /\ val (C_i b) (ci h) /\ val (C_em b) (ce h) /\ val (C_cyl c) (cc h) /\
  val (H_ob b) (h_ob h) /\ val (H_bi b) (h_bi h) /\ val (H_v b) (h_v h) /\ val (H_em b) (h_em h) /\
  val (H_loss c) (h_loss h) /\ val (irr_mult b) (h_irr h).
Definition house_ok (h : house) : Prop :=
  0 < cb h /\ 0 < ci h /\ 0 < ce h /\ 0 < cc h /\ 0 <= h_ob h /\ 0 <= h_bi h /\ 0 <= h_v h /\ 0 <= h_em h /\ 0 <= h_loss h.

(** What acts on the household in one step: outside temperature, irradiance,
    hot water drawn (W/K), inner gains, and the heat for water and for space. *)
Record drive := Drive { v_out : Q; v_irr : Q; v_draw : Q; v_occ : Q; v_light : Q; v_app : Q; v_dhw : Q; v_sh : Q }.
Definition drive_is (w : gains) (o : outputs) (d : drive) : Prop :=
  val (w_out w) (v_out d) /\ val (w_irr w) (v_irr d) /\ val (w_dhw w) (v_draw d) /\ val (w_occ w) (v_occ d) /\
  val (w_light w) (v_light d) /\ val (w_app w) (v_app d) /\ val (o_dhw o) (v_dhw d) /\ val (o_sh o) (v_sh d).

(** Heat received by the room from the sun, the residents, the lights and the
    appliances. *)
Definition free_heat (h : house) (d : drive) : Q := v_irr d * h_irr h + v_occ d + v_light d + v_app d.

(** One explicit step of the heat flows of length [dt] between the parts. *)
Definition heat_flows (dt : Q) (h : house) (d : drive) (t t' : temp5) : Prop :=
  let out_wall := h_ob h * (v_out d - t_b t) in
  let room_wall := h_bi h * (t_i t - t_b t) in
  let out_room := h_v h * (v_out d - t_i t) in
  let em_room := h_em h * (t_e t - t_i t) in
  let cyl_room := h_loss h * (t_c t - t_i t) in
  let drawn := v_draw d * (t_c t - t_w t) in
  cb h * (t_b t' - t_b t) == dt * (out_wall + room_wall) /\
  ci h * (t_i t' - t_i t) == dt * (out_room - room_wall + em_room + cyl_room + free_heat h d) /\
  ce h * (t_e t' - t_e t) == dt * (v_sh d - em_room) /\
  cc h * (t_c t' - t_c t) == dt * (v_dhw d - cyl_room - drawn) /\
  t_w t' == t_w t.

(** Stored heat. *)
Definition stored (h : house) (t : temp5) : Q := cb h * t_b t + ci h * t_i t + ce h * t_e t + cc h * t_c t.

(** The step is short enough for every part. *)
Definition short_step (dt : Q) (h : house) (draw : Q) : Prop :=
  0 <= dt /\ 0 <= draw /\ dt * (h_ob h + h_bi h) <= cb h /\ dt * (h_v h + h_bi h + h_em h + h_loss h) <= ci h /\
  dt * h_em h <= ce h /\ dt * (h_loss h + draw) <= cc h.

(** Ordering of temperatures. *)
Definition cooler (t u : temp5) : Prop := t_b t <= t_b u /\ t_i t <= t_i u /\ t_e t <= t_e u /\ t_c t <= t_c u /\ t_w t <= t_w u.
Definition flat (x : Q) : temp5 := T5 x x x x x.
Definition within (lo hi : Q) (t : temp5) : Prop := cooler (flat lo) t /\ cooler t (flat hi).

(** ** Runs of the building alone *)
Definition binput := (gains * outputs)%type.
Definition building_run (dt : option Q) (b : building) (c : cylinder) (l : list binput) (t : temps) : temps :=
  fold_left (fun t i => building_step dt b c t (fst i) (snd i)) l t.

(** ** Thermostats *)

(** A thermostat run along a list of temperatures with a fixed target. *)
Definition thermostat_run (on : bool) (target band : Q) (l : list Q) : bool :=
  fold_left (fun s t => thermostat s (Some t) (Some target) (Some band)) l on.

(** ** Heating system *)

(** Demand limited to a range. *)
Definition limited (x hi y : Q) : Prop := (x <= 0 -> y == 0) /\ (0 <= x <= hi -> y == x) /\ (hi <= x -> 0 <= x -> y == hi).

(** ** The five modules *)

(** Inputs without anything external. *)
Definition internal (w : gains) : hinput := HInput w None NoHeat None None None.

(** What an observer of the household sees, except for the external cylinder. *)
Definition same_view (x y : hstate) : Prop :=
  x_temps x = x_temps y /\ x_targets x = x_targets y /\ x_therm x = x_therm y /\ x_controls x = x_controls y /\
  x_demand x = x_demand y /\ x_algo x = x_algo y /\ x_outputs x = x_outputs y /\ x_ext_sys x = x_ext_sys y.

Fixpoint five_run (p : hpar) (x : hstate) (l : list hinput) : result hstate :=
  match l with [] => Ok x | i :: t => bind (five_step p x i) (fun x' => five_run p x' t) end.

(** A household with finite parameters: its house, the ratings of its heating
    system for space and water, the dead bands and the step size in seconds. *)
Record plant := Plant { pl_house : house; pl_sh : Q; pl_dhw : Q; pl_bsh : Q; pl_bhw : Q; pl_bem : Q; pl_dt : Q }.
Definition plant_is (p : hpar) (P : plant) : Prop :=
  house_is (p_building p) (m_cyl (p_system p)) (pl_house P) /\ house_ok (pl_house P) /\
  val (m_sh (p_system p)) (pl_sh P) /\ val (m_dhw (p_system p)) (pl_dhw P) /\ 0 <= pl_sh P /\ 0 <= pl_dhw P /\
  val (d_sh (p_bands p)) (pl_bsh P) /\ val (d_hw (p_bands p)) (pl_bhw P) /\ val (d_em (p_bands p)) (pl_bem P) /\
  val (p_dt p) (pl_dt P).

(** Targets of room, water and emitters. *)
Record goal3 := G3 { t_room : Q; t_water : Q; t_emit : Q }.
Definition targets_are (g : targets) (v : goal3) : Prop := val (g_sh g) (t_room v) /\ val (g_dhw g) (t_water v) /\ val (g_em g) (t_emit v).

(** What the environment does in a step; the heat is for the simulator to say. *)
Definition weather_is (w : gains) (d : drive) : Prop :=
  val (w_out w) (v_out d) /\ val (w_irr w) (v_irr d) /\ val (w_dhw w) (v_draw d) /\ val (w_occ w) (v_occ d) /\
  val (w_light w) (v_light d) /\ val (w_app w) (v_app d).
Definition with_heat (d : drive) (dhw sh : Q) : drive :=
  Drive (v_out d) (v_irr d) (v_draw d) (v_occ d) (v_light d) (v_app d) dhw sh.

(** Weather that keeps a household between [lo] and [hi] as long as the heating
    does: the free heat is what ventilation carries away at [hi] at most. *)
Definition mild (dt : Q) (h : house) (lo hi : Q) (d : drive) : Prop :=
  short_step dt h (v_draw d) /\ lo <= v_out d /\ 0 <= free_heat h d /\ free_heat h d <= h_v h * (hi - v_out d).

(** An external array that says nothing about this household: not given, or nan. *)
Definition absent (v : option (option Q)) : Prop := v = None \/ v = Some None.
Definition heat_absent (e : ext_heat) : Prop :=
  e = NoHeat \/ exists d, e = HeatDict d /\ forall k v, In (k, v) d -> v = None /\ (k = "dhw" \/ k = "space_heating" \/ k = "total")%string.
