(** * Lighting simulators.

    Model of [demod/simulators/lighting_simulators.py].  Two dimensional arrays
    (households x bulbs) are lists of rows.  Random numbers are explicit
    arguments: one per cell of the array they are used for. *)

From Coq Require Import String List ZArith QArith Bool Arith.
From Verif Require Import Prelude Parse_Model Sampling_Model Appliance_Model.
Import ListNotations.

Set Implicit Arguments.
Open Scope Q_scope.

(** ** FisherLightingSimulator *)

(** The occupancy kept by the simulator: line 100 [np.ones_like(n_households)]
    is a single number, not an array. *)
Inductive fvalue := Single (x : Q) | PerHousehold (l : list Q).

(** lighting_simulators.py lines 69-107: parameters and state. *)
Record fisher := Fisher {
  f_min : Q;                 (* global_irradiation_min_switch *)
  f_max : Q;                 (* global_irradiation_max_switch *)
  f_use : Q;                 (* individual_light_use *)
  f_occ : fvalue;            (* active_occupancy *)
  f_irr : Q                  (* irradiance *)
}.

(** lighting_simulators.py lines 85-107 [initialize_starting_state];
    [initial_irradiance or 0]. *)
Definition fisher_init (mn mx use : Q) (occ : option (list Q)) (irr : option Q) : fisher :=
  Fisher mn mx use (match occ with None => Single 1 | Some l => PerHousehold l end)
         (match irr with None => 0 | Some x => x end).

(** [np.clip(x, 0, 1)]. *)
Definition clip01 (x : Q) : Q := if Qltb x 0 then 0 else if Qltb 1 x then 1 else x.

(** lighting_simulators.py lines 109-124 [calculate_light_usage_value]; equal
    thresholds are a division by zero. *)
Definition light_usage (f : fisher) (irr : Q) : result Q :=
  if Qeq_bool (f_max f - f_min f) 0 then Err ZeroDivisionError
  else Ok (clip01 ((f_max f - irr) / (f_max f - f_min f))).

(** lighting_simulators.py lines 127-139 [get_power_consumption]. *)
Definition fisher_power (f : fisher) : result fvalue :=
  bind (light_usage f (f_irr f)) (fun v =>
  Ok (match f_occ f with
      | Single x => Single (x * f_use f * v)
      | PerHousehold l => PerHousehold (map (fun x => x * f_use f * v) l)
      end)).

(** lighting_simulators.py lines 141-152 [step] (the time is kept by the
    parent, see Base_Model.v). *)
Definition fisher_step (f : fisher) (occ : list Q) (irr : Q) : fisher :=
  Fisher (f_min f) (f_max f) (f_use f) (PerHousehold occ) irr.

(** ** CrestLightingSimulator *)

(** lighting_simulators.py lines 205-220: the data of [load_crest_lighting]. *)
Record lpar := LPar {
  p_cal : Q;                 (* calibration_scalar *)
  p_eff : list Q;            (* effective_occupancy_array *)
  p_cdf : list Q;            (* durations_cdf *)
  p_low : list Q;            (* durations_low *)
  p_high : list Q            (* durations_high *)
}.

(** The arrays kept by the simulator.  A missing bulb power ([nan]) is [None]. *)
Record lsim := LSim {
  l_power : list (list (option Q));   (* bulbs_power *)
  l_use : list (list Q);              (* relative_use *)
  l_thr : list Q;                     (* irradiance_threshold *)
  l_left : list (list Z)              (* bulbs_times_left, an integer array *)
}.

(** lighting_simulators.py lines 228-248 [initialize_bulbs]: the powers times
    zero, converted to integers; a nan becomes the smallest 64 bit integer. *)
Definition nan_to_int : Z := (- 2 ^ 63)%Z.
Definition initialize_bulbs (method : string) (power : list (list (option Q))) : result (list (list Z)) :=
  if String.eqb method "off" then
    Ok (map (map (fun p => match p with None => nan_to_int | Some x => trunc (x * 0) end)) power)
  else Err ValueError.

(** lighting_simulators.py lines 293-305 [sample_bulbs_configuration] with
    'randn': [g] are the Gaussian numbers, [u h j] the draw of bulb j of
    household h.  [mean + std * g] is converted to an integer, at least one. *)
Definition n_bulbs (mean std : Q) (g : list Q) : list nat :=
  map (fun x => Z.to_nat (Z.max 1 (trunc (mean + std * x)))) g.
Definition bulbs_randn (mean std : Q) (consumptions penetration : list Q) (g : list Q) (u : nat -> nat -> Q) :
  result (list (list Q)) :=
  let ns := n_bulbs mean std g in
  match ns with
  | [] => Err ValueError                      (* max of an empty sequence *)
  | _ =>
      let width := list_max_nat ns in
      mapM (fun hn : nat * nat =>
              bind (mc_from_1d_pdf penetration (map (u (fst hn)) (seq 0 (snd hn)))) (fun kinds =>
              bind (mapM (vget consumptions) kinds) (fun ps =>
              Ok (ps ++ repeat 0 (width - snd hn)))))
           (combine (seq 0 (length ns)) ns)
  end.

(** lighting_simulators.py lines 307-322 with 'config': [r] are the integers
    drawn between 0 and the number of configurations. *)
Definition bulbs_config {A} (configs : list (list A)) (r : list nat) : result (list (list A)) :=
  mapM (vget configs) r.

(** lighting_simulators.py lines 351-366 [active_to_effective]. *)
Definition active_to_effective (par : lpar) (occ : list Z) : result (list Q) :=
  mapM (fun n => bind (py_index (length (p_eff par)) n) (vget (p_eff par))) occ.

(** lighting_simulators.py lines 381-389 [draw_random_durations] for one
    sample: [e] selects the interval, [r] the place in it. *)
Definition draw_duration (par : lpar) (e r : Q) : result Q :=
  bind (mc_one (p_cdf par) e) (fun i =>
  bind (vget (p_low par) i) (fun lo =>
  bind (vget (p_high par) i) (fun hi =>
  Ok (lo + r * (hi - lo))))).

(** Elementwise with the position of the entry. *)
Definition cells {A B} (f : nat -> nat -> A -> B) (m : list (list A)) : list (list B) :=
  map2 (fun h row => map2 (f h) (seq 0 (length row)) row) (seq 0 (length m)) m.

(** Random numbers of a step: the 5% draw, the switch-on draw, and the two
    draws of the duration. *)
Record ldraws := LDraws {
  d_five : nat -> nat -> Q; d_on : nat -> nat -> Q; d_int : nat -> nat -> Q; d_pos : nat -> nat -> Q }.

(** lighting_simulators.py lines 402-451 [step]. *)
Definition light_step (par : lpar) (s : lsim) (d : ldraws) (occ : list Z) (irr : Q) : result lsim :=
  (* 416 *)
  let left1 := map (map (fun t => if Z.ltb 0 t then Z.pred t else t)) (l_left s) in
  (* 420 *)
  bind (active_to_effective par occ) (fun eff =>
  (* 426-429 *)
  let low := map2 (fun t row => map (fun x => Qltb irr t || Qltb x (5 # 100)) row)
                  (l_thr s) (cells (fun h j _ => d_five d h j) (l_power s)) in
  (* 432-434 *)
  let idx := where2 (mmap2 andb low (map (map (fun t => Z.eqb t 0)) left1)) in
  (* 436-444 *)
  bind (mapM (fun k => bind (vget eff (fst k)) (fun e => bind (mget (l_use s) (fst k) (snd k)) (fun r =>
                Ok (Qltb (d_on d (fst k) (snd k)) (e * r * p_cal par))))) idx) (fun decided =>
  let on := compress decided idx in
  (* 447-449 *)
  if (match p_cdf par with [] => true | _ => false end) then Err ValueError else
  bind (mapM (fun k => draw_duration par (d_int d (fst k) (snd k)) (d_pos d (fst k) (snd k))) on) (fun ds =>
  bind (mput (combine on (map trunc ds)) left1) (fun left2 =>
  (* 451 *)
  if negb (Nat.eqb (length occ) (length left2)) then Err IndexError else
  Ok (LSim (l_power s) (l_use s) (l_thr s)
           (map2 (fun (n : Z) row => if Z.eqb n 0 then map (fun _ => 0%Z) row else row) occ left2)))))).

(** lighting_simulators.py lines 391-394 [get_electric_consumptions], also
    [get_power_demand] and [get_thermal_gains] (396-400).  [nansum] leaves out
    the missing powers ([nan * False] is [nan]). *)
Definition light_consumption (s : lsim) : list Q :=
  map qsum (mmap2 (fun p t => match p with None => 0 | Some x => x * b2q (Z.ltb 0 t) end) (l_power s) (l_left s)).
