(** * Electric cars.

    Model of [demod/simulators/car_simulator.py].  The parallel arrays with one
    entry per car ([car_hh], [in_use], [times_left_chargin], ...) are a list of
    records.  Random numbers are explicit arguments. *)

From Coq Require Import String List ZArith QArith Bool Arith.
From Verif Require Import Prelude Parse_Model Sampling_Model Appliance_Model.
Import ListNotations.

Set Implicit Arguments.
Open Scope Q_scope.

(** One car: entries of the arrays of lines 46-53, 62 and 98-103. *)
Record car := Car {
  c_hh : nat;               (* car_hh: household of the car *)
  c_cons : Q;               (* car_consumptions, kWh/100km *)
  c_timer : Z;              (* car_timer *)
  c_use : bool;             (* in_use *)
  c_left : Z;               (* times_left_chargin *)
  c_used : Z;               (* times_used *)
  c_chg : bool              (* is_charging *)
}.
Definition set_use (c : car) (b : bool) := Car (c_hh c) (c_cons c) (c_timer c) b (c_left c) (c_used c) (c_chg c).
Definition set_left (c : car) (t : Z) := Car (c_hh c) (c_cons c) (c_timer c) (c_use c) t (c_used c) (c_chg c).
Definition set_used (c : car) (t : Z) := Car (c_hh c) (c_cons c) (c_timer c) (c_use c) (c_left c) t (c_chg c).
Definition set_chg (c : car) (b : bool) := Car (c_hh c) (c_cons c) (c_timer c) (c_use c) (c_left c) (c_used c) b.

(** The simulator.  [k_strategy] is [charging_strategy]; it is a bare integer
    ([None]) with the 'timers' method, line 67. *)
Record csim := CSim {
  k_cars : list car;
  k_station : list Q;            (* station_power, W *)
  k_strategy : option (list nat);
  k_occ : list Z; k_hoh : list Z; k_hwh : list Z;
  k_time : nat                   (* current_time_step *)
}.

(** car_simulator.py lines 40-44 [sample_n_cars]. *)
Definition n_cars_pdf : list Q := [14292968 # 100000000; 50291952 # 100000000; 29017517 # 100000000; 6397563 # 100000000].
Definition sample_n_cars (u : list Q) : result (list nat) := mc_from_1d_pdf n_cars_pdf u.

(** car_simulator.py line 53 [car_hh]: household i repeated n_cars\[i\] times. *)
Definition car_households (n_cars : list nat) : list nat :=
  concat (map2 (fun i n => repeat i n) (seq 0 (length n_cars)) n_cars).

(** car_simulator.py lines 59-71 [attributes_stategy]; [mixed] are the random
    integers of line 69. *)
Definition attributes_strategy (method : string) (n : nat) (mixed : list nat) : result (option (list nat)) :=
  if String.eqb method "after use" then Ok (Some (repeat 0%nat n))
  else if String.eqb method "timers" then Ok None
  else if String.eqb method "mixed" then Ok (Some mixed)
  else Err ValueError.

(** car_simulator.py lines 98-103 [initialize_starting_state]. *)
Definition new_car (hh : nat) (cons : Q) (timer : Z) : car := Car hh cons timer false 0 0 false.

(** car_simulator.py lines 74-96: the constructor from the sampled data. *)
Definition new_csim (cars : list (nat * Q * Z)) (station : list Q) (strategy : option (list nat)) (occ hoh hwh : list Z) : csim :=
  CSim (map (fun x => new_car (fst (fst x)) (snd (fst x)) (snd x)) cars) station strategy occ hoh hwh 0.

(** [np.isin(car_hh, np.where(mask)\[0\])]. *)
Definition hh_in (mask : list bool) (h : nat) : bool := existsb (Nat.eqb h) (where_true mask).

(** car_simulator.py lines 142-145 and 182-185: one of the selected cars of each
    household, the first one, through [np.unique(..., return_index=True)]. *)
Definition one_per_household (hh : list nat) (mask : list bool) : result (list bool) :=
  let sel := compress mask hh in
  let ind := map (fun v => index_in Nat.compare v sel) (uniq Nat.compare sel) in
  bind (mapM (vget (where_true mask)) ind) (fun chosen =>
  Ok (map (fun i => existsb (Nat.eqb i) chosen) (seq 0 (length mask)))).

(** car_simulator.py lines 105-116 [compute_trip_energy], kWh. *)
Definition trip_energy (c : car) : Q := c_cons c * (inject_Z (c_used c) / 6 * 46 * (1 # 2)) / 100.

(** car_simulator.py lines 154-155: the integer number of 10 minute steps needed. *)
Definition time_to_charge (c : car) (power : Q) : result Z :=
  if Qeq_bool power 0 then Err ZeroDivisionError
  else Ok (trunc (trip_energy c * 3600000 / power / 10 / 60)).

(** car_simulator.py lines 150-157: an arriving car. *)
Definition arrive (station : list Q) (arriving : bool) (c : car) : result car :=
  if arriving then
    bind (vget station (c_hh c)) (fun p =>
    bind (time_to_charge c p) (fun t =>
    Ok (set_used (set_left (set_use c false) (c_left c + t)%Z) 0%Z)))
  else Ok c.

(** car_simulator.py lines 201-213 [start_charging] at time [t]. *)
Definition steps_till_charged (timer t : Z) : Z :=
  if (0 <? timer - t)%Z then (timer - t)%Z else (timer + (144 - t))%Z.
Definition start_charging (st : list nat) (t : Z) (arriving : bool) (c : car) : result car :=
  bind (vget st (c_hh c)) (fun s =>
  let chg1 := (arriving && Nat.eqb s 0) || c_chg c in
  let chg2 := (Z.eqb (c_left c) (steps_till_charged (c_timer c) t) && Nat.eqb s 1 && negb (c_use c)) || chg1 in
  Ok (set_chg c chg2)).
(** [charging_strategy\[car_hh\]] when the strategy is a bare integer. *)
Definition strategy_array (strategy : option (list nat)) : result (list nat) :=
  match strategy with None => Err TypeError | Some st => Ok st end.

(** car_simulator.py lines 87-88. *)
Definition prob_HOH : list Q := [0; 62679598 # 100000000; 81792453 # 100000000; 87903226 # 100000000; 93333333 # 100000000; 1].
Definition prob_HWH : list Q := [0; 52228261 # 100000000; 47798742 # 100000000; 5 # 10; 5 # 10; 5 # 10].

(** car_simulator.py lines 164-174: probability that a car leaves household h. *)
Definition leave_prob (occ occ' hoh hoh' hwh hwh' : Z) : result Q :=
  let departure := Z.ltb occ' occ in
  let p := if Z.ltb hwh hwh' && departure then bind (py_index (length prob_HWH) (occ - occ')) (vget prob_HWH) else Ok 0 in
  bind p (fun p1 =>
  if Z.ltb hoh hoh' && departure then bind (py_index (length prob_HOH) (occ - occ')) (vget prob_HOH) else Ok p1).

(** car_simulator.py lines 215-218 [update_charging]. *)
Definition update_charging (c : car) : car :=
  let c1 := if c_chg c then set_left c (Z.pred (c_left c)) else c in
  if Z.ltb (c_left c1) 1 then set_chg c1 false else c1.

Definition STEP_IGNORE_TRANSITIONS : nat := 1.
Definition has_len {A} (l : list A) (n : nat) : bool := Nat.eqb (length l) n.

(** car_simulator.py lines 118-198 [step].  [u_arr] are the uniform numbers of
    line 135, [u_dep] those of line 179.  The shapes are checked first: numpy
    raises ValueError for arrays that do not match. *)
Definition car_step (s : csim) (u_arr u_dep : list Q) (occ hoh hwh : list Z) : result csim :=
  let n := length (k_station s) in
  if negb (has_len occ n && has_len hoh n && has_len hwh n) then Err ValueError else
  (* 119 *)
  let time := S (k_time s) in
  (* 126 *)
  let cars1 := map (fun c => if c_use c then set_used c (Z.succ (c_used c)) else c) (k_cars s) in
  let hh := map c_hh cars1 in
  (* 130-137 *)
  let n_use := bincount (compress (map c_use cars1) hh) n in
  bind (mc_from_1d_pdf [1 # 10; 9 # 10] u_arr) (fun r =>
  let rise := map2 (fun (o o' : Z) => Z.ltb o o') (k_occ s) occ in
  let more := map2 (fun x k => Z.ltb x (Z.of_nat k)) (map2 Z.add hoh hwh) n_use in
  let arrivals := map2 andb (map2 orb (map2 (fun (m : bool) k => m && Nat.eqb k 1) rise r) more)
                            (map (fun k => Nat.ltb 0 k) n_use) in
  (* 140-148 *)
  bind (one_per_household hh (map (fun c => hh_in arrivals (c_hh c) && c_use c) cars1)) (fun arriving0 =>
  let ignored := Nat.eqb (time mod 144) STEP_IGNORE_TRANSITIONS in
  let arriving := map (fun b => b && negb ignored) arriving0 in
  (* 150-161 *)
  bind (mapM (fun x => arrive (k_station s) (fst x) (snd x)) (combine arriving cars1)) (fun cars2 =>
  bind (strategy_array (k_strategy s)) (fun st =>
  bind (mapM (fun x => start_charging st (Z.of_nat (time mod 144)) (fst x) (snd x)) (combine arriving cars2)) (fun cars3 =>
  (* 164-179 *)
  bind (mapM (fun x => let '(o, o', (a, a', (w, w'))) := x in leave_prob o o' a a' w w')
             (combine (combine (k_occ s) occ) (combine (combine (k_hoh s) hoh) (combine (k_hwh s) hwh)))) (fun probs =>
  let leaves := map2 (fun p u => Qltb u p) probs u_dep in
  (* 181-188 *)
  bind (one_per_household hh (map (fun c => hh_in leaves (c_hh c) && negb (c_use c)) cars3)) (fun leaving0 =>
  let leaving := map (fun b => b && negb ignored) leaving0 in
  let cars4 := map2 (fun (b : bool) c => if b then set_chg (set_use c true) false else c) leaving cars3 in
  (* 190-198 *)
  Ok (CSim (map update_charging cars4) (k_station s) (k_strategy s) occ hoh hwh time)))))))).

(** car_simulator.py lines 220-229 [get_electric_consumption]. *)
Definition n_charging (s : csim) : list nat :=
  map (fun h => count_nat h (compress (map c_chg (k_cars s)) (map c_hh (k_cars s)))) (seq 0 (length (k_station s))).
Definition car_consumption (s : csim) : list Q :=
  map2 (fun k p => inject_Z (Z.of_nat k) * p) (n_charging s) (k_station s).

(** car_simulator.py lines 245-249 [get_n_used_cars]. *)
Definition n_used_cars (s : csim) : list nat :=
  map (fun h => count_nat h (compress (map c_use (k_cars s)) (map c_hh (k_cars s)))) (seq 0 (length (k_station s))).

(** car_simulator.py lines 231-243 [get_car_electric_consumption], W. *)
Definition driving_consumption (s : csim) : list Q :=
  map (fun c => if c_use c then c_cons c * 3600000 / 100 * (1 # 2) * 46 / 3600 else 0) (k_cars s).
