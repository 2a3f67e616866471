(** * The older appliance simulator of demod/simulators/crest_simulators.py, lines 344-689
    ([CRESTAppliancesSimulator]).

    [n_steps_left] (floats, exact rationals here) and [n_steps_till_refresh] (integers) are
    always written at the same places and are one array of pairs.  The draws are arguments.
    Missing numbers (nan) of the sheet are not modelled. *)

From Coq Require Import String List ZArith QArith Bool Arith.
From Verif Require Import Prelude Parse_Model Sampling_Model Appliance_Model.
Import ListNotations.

Open Scope Q_scope.

(** One column of [self.appliances] (lines 367-384). *)
Record wapp := WApp {
  wa_name : string;      (* 'name' *)
  wa_act : string;       (* 'activation type' *)
  wa_dur : Q;            (* 'mean cycle durations' *)
  wa_delay : Q;          (* 'delay after cycle' *)
  wa_power : Q;          (* 'mean cycle power', a flow for water fixtures *)
  wa_standby : Q         (* 'standby power' *)
}.

(** 'water usage cdfs' (lines 418-445): labels, cumulative distributions, volumes. *)
Record usage := Usage { us_labels : list string; us_cdfs : list (list Q); us_litres : list Q }.

(** A cell: steps left and steps till refresh. *)
Record cell := Cell { c_left : Q; c_refresh : Z }.
Record wsim := WSim { z_apps : list wapp; z_own : list (list bool); z_cells : list (list cell) }.
Definition with_cells (s : wsim) (c : list (list cell)) : wsim := WSim (z_apps s) (z_own s) c.

(** ** Construction *)

(** Lines 367-384 and 402-416 with 451-459: keys of the dictionaries read from the files. *)
Definition read_keys : list string :=
  ["name"; "equipped dwellings probs"; "activation type"; "mean cycle durations"; "delay after cycle";
   "switch-on probs"; "mean cycle power"; "standby power"; "mean power factor"; "number"; "water usage cdfs"]%string.

(** The argument [data]: a name or a dictionary, of which the keys matter. *)
Inductive source := Named (s : string) | Dictionary (keys : list string).
(** [raise Exception(...)] of line 462 is none of the usual errors. *)
Inductive created := Created | Failed (e : py_error) | Plain_exception.

Definition needs (keys wanted : list string) (next : created) : created :=
  if forallb (fun k => existsb (String.eqb k) keys) wanted then next else Failed KeyError.

(** Lines 447-464 [__init__] with appliance_simulators.py:109-137, 207-238 and 348-364: the keys
    that are read, with the sampling "basic" (the default), "all", "correlated" or another, and
    real_profiles_algo "nothing". *)
Definition new_appliances (data : source) (algo : sampling) : created :=
  let make keys :=
    match algo with
    | Basic => needs keys ["equipped_prob"; "number"]%string (needs keys ["type"]%string Created)
    | Correlated => Failed NotImplementedError
    | AllApps => needs keys ["number"]%string (needs keys ["type"]%string Created)
    | Unknown_algo => Failed ValueError
    end in
  match data with
  | Named n => if String.eqb n "CREST" || String.eqb n "GTOU" then make read_keys else Plain_exception
  | Dictionary keys => make keys
  end.

(** ** Switching on *)

Definition is_water (w : usage) (a : wapp) : bool := existsb (String.eqb (wa_name a)) (us_labels w).

(** Lines 498-506: the place of the name among the labels, the last one if repeated. *)
Fixpoint last_place (name : string) (labels : list string) (i found : nat) : nat :=
  match labels with
  | [] => found
  | l :: t => last_place name t (S i) (if String.eqb name l then i else found)
  end.

(** Lines 471-481: the cell of an appliance that is switched on. *)
Definition mean_cell (s : wsim) (k : nat * nat) : result cell :=
  bind (vget (z_apps s) (snd k)) (fun a => Ok (Cell (wa_dur a) (trunc (wa_dur a + wa_delay a)))).

(** Lines 495-524 [_switch_on_water_fixtures] at one place; [u h j] is the draw.  A zero flow
    gives an infinite duration in numpy, which the model rejects. *)
Definition water_cell (w : usage) (s : wsim) (u : nat -> nat -> Q) (k : nat * nat) : result cell :=
  bind (vget (z_apps s) (snd k)) (fun a =>
  bind (vget (us_cdfs w) (last_place (wa_name a) (us_labels w) 0 0)) (fun cdf =>
  bind (mc_one cdf (u (fst k) (snd k))) (fun i =>
  bind (vget (us_litres w) i) (fun v =>
  if Qeq_bool (wa_power a) 0 then Err ZeroDivisionError else
  Ok (Cell (v / wa_power a) (trunc (v / wa_power a + wa_delay a))))))).

Definition assign (f : nat * nat -> result cell) (idx : list (nat * nat)) (s : wsim) : result wsim :=
  bind (mapM (fun k => bind (f k) (fun c => Ok (k, c))) idx) (fun kvs =>
  bind (mput kvs (z_cells s)) (fun c => Ok (with_cells s c))).

(** Lines 466-493 [switch_on]. *)
Definition old_switch_on (w : usage) (s : wsim) (u : nat -> nat -> Q) (idx : list (nat * nat)) : result wsim :=
  bind (assign (mean_cell s) idx s) (fun s1 =>
  assign (water_cell w s u)
         (filter (fun k => match nth_error (z_apps s) (snd k) with Some a => is_water w a | None => false end) idx) s1).

(** Lines 526-551 [switch_off_inactive]. *)
Definition goes_off (a : wapp) : bool :=
  negb (String.eqb (wa_act a) "ACT_LAUNDRY") && negb (String.eqb (wa_act a) "ACT_DISHWASHER") && negb (String.eqb (wa_act a) "LEVEL").
Definition off_cell (a : wapp) (c : cell) : cell :=
  Cell 0 (trunc (if Qle_bool (inject_Z (c_refresh c)) (wa_delay a) then inject_Z (c_refresh c) else wa_delay a)).
Definition old_switch_off (s : wsim) (occ : list Z) : wsim :=
  with_cells s (map2 (fun (n : Z) row => map2 (fun a c => if Z.eqb n 0 && goes_off a then off_cell a c else c) (z_apps s) row) occ (z_cells s)).

(** appliance_simulators.py lines 655-659 [update_iteration_variables]: one step. *)
Definition old_tick (s : wsim) : wsim :=
  with_cells s (map (map (fun c => Cell (tick_left (c_left c)) (tick_refresh (c_refresh c)))) (z_cells s)).

(** ** Power *)

(** Lines 637-689 [_compute_washing_machine_power] of one machine; [standby] is that of the
    appliance of this name.  The assignments of lines 646-683 are made in order. *)
Definition wash_table : list (option Q * Q * Q) :=
  [(None, 8, 73); (Some 8, 29, 2056); (Some 29, 81, 73); (Some 81, 92, 73); (Some 92, 94, 250); (Some 94, 105, 73);
   (Some 105, 107, 250); (Some 107, 118, 73); (Some 118, 120, 250); (Some 120, 131, 73); (Some 131, 133, 250);
   (Some 133, 138, 568); (Some 138, 198, 2500)].
Definition wash_phase (t : Q) : Q :=
  fold_left (fun p row => let '(lo, hi, v) := row in
                          if match lo with None => true | Some x => Qltb x t end && Qle_bool t hi then v else p) wash_table 0.
Definition wash_power (name : string) (left standby : Q) : result Q :=
  bind (if String.eqb name "WASHING_MACHINE" then Ok 138 else if String.eqb name "WASHER_DRYER" then Ok 198 else Err ValueError) (fun total =>
  Ok (if Qeq_bool left 0 then standby else wash_phase (total - left))).

(** Lines 554-564: an appliance without a special case. *)
Definition plain_power (a : wapp) (own : bool) (left : Q) : Q :=
  b2q (Qeq_bool left 0) * wa_standby a * b2q own + b2q (Qltb 0 left) * wa_power a.

(** Lines 568-583: the machines of a name; the mask of the owners has one entry per household
    and column of the name, and must have one per household. *)
Definition named (name : string) (apps : list wapp) : nat := List.length (filter (fun a => String.eqb (wa_name a) name) apps).
Definition check_column (name : string) (s : wsim) : result unit :=
  if Nat.eqb (named name (z_apps s) * List.length (z_own s)) (List.length (z_own s)) then Ok tt else Err IndexError.

Definition fixtures : list string := ["BASIN"; "SINK"; "SHOWER"; "BATH"]%string.

(** Lines 553-593 [get_current_power_consumptions] at one place, once the columns are right. *)
Definition cell_power (a : wapp) (own : bool) (left : Q) : result Q :=
  if existsb (String.eqb (wa_name a)) fixtures then Ok 0 else
  if (String.eqb (wa_name a) "WASHING_MACHINE" || String.eqb (wa_name a) "WASHER_DRYER") && own
  then wash_power (wa_name a) left (wa_standby a) else Ok (plain_power a own left).
Definition old_powers (s : wsim) : result (list (list Q)) :=
  bind (check_column "WASHING_MACHINE" s) (fun _ => bind (check_column "WASHER_DRYER" s) (fun _ =>
  mapM (fun r : list bool * list cell =>
          mapM (fun x : wapp * (bool * cell) => cell_power (fst x) (fst (snd x)) (c_left (snd (snd x)))) (combine (z_apps s) (combine (fst r) (snd r))))
       (combine (z_own s) (z_cells s)))).

(** ** Water *)

(** Lines 595-619 [get_current_water_consumptions] at one place. *)
Definition cell_water (w : usage) (a : wapp) (own : bool) (left : Q) : Q :=
  if is_water w a then
    b2q (Qle_bool left 0) * wa_standby a * b2q own
    + left * b2q (Qltb 0 left && Qltb left 1) * wa_power a
    + b2q (Qle_bool 1 left) * wa_power a
  else 0.
Definition old_water (w : usage) (s : wsim) : list (list Q) :=
  map2 (fun own row => map2 (fun a x => cell_water w a (fst x) (c_left (snd x))) (z_apps s) (combine own row)) (z_own s) (z_cells s).

(** Lines 621-635 [get_hot_water_thermal_transfer_coefficient]. *)
Definition old_transfer (w : usage) (s : wsim) : list Q :=
  map (fun row => 4200 * (1000 * (qsum row / 1000 / 60))) (old_water w s).
