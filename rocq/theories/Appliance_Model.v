(** * Appliance simulators and appliance helpers.

    Model of [demod/simulators/appliance_simulators.py] (the parent class
    [AppliancesSimulator] and the [OccupancyApplianceSimulator]) and of
    [demod/utils/appliances.py].

    Two dimensional arrays (households x appliances) are lists of rows.  The
    remaining times [n_steps_left] are floats (here [Q]), the refresh times
    [n_steps_till_refresh] are an integer array (here [Z]): values assigned to it
    are truncated toward zero.  Random numbers are explicit arguments, one per
    cell of the array they are used for. *)

From Coq Require Import Ascii String List ZArith QArith Qround Bool Arith.
From Coq Require Import DecimalString.
From Verif Require Import Prelude Parse_Model.
Import ListNotations.

Set Implicit Arguments.
Open Scope Q_scope.

(** ** numpy primitives on two dimensional arrays *)

Definition matrix (A : Type) := list (list A).

(** Elementwise binary operation of two arrays of the same shape. *)
Definition mmap2 {A B C} (f : A -> B -> C) (m : list (list A)) (n : list (list B)) : list (list C) :=
  map2 (map2 f) m n.

(** Elementwise operation with a row vector ([m * row\[np.newaxis, :\]]). *)
Definition mrow {A B C} (f : A -> B -> C) (m : list (list A)) (row : list B) : list (list C) :=
  map (fun r => map2 f r row) m.

(** [m\[i, j\]]. *)
Definition mget {A} (m : list (list A)) (i j : nat) : result A :=
  match nth_error m i with
  | None => Err IndexError
  | Some r => match nth_error r j with None => Err IndexError | Some x => Ok x end
  end.

(** [a\[i\]]. *)
Definition vget {A} (l : list A) (i : nat) : result A :=
  match nth_error l i with None => Err IndexError | Some x => Ok x end.

(** [np.where(mask)] of a two dimensional mask: positions in row order. *)
Fixpoint where2_from (i : nat) (m : list (list bool)) : list (nat * nat) :=
  match m with
  | [] => []
  | r :: t => map (pair i) (where_true r) ++ where2_from (S i) t
  end.
Definition where2 (m : list (list bool)) : list (nat * nat) := where2_from 0 m.

(** [m\[hh, app\] = values]: assignments in order. *)
Fixpoint mput {A} (kvs : list ((nat * nat) * A)) (m : list (list A)) : result (list (list A)) :=
  match kvs with
  | [] => Ok m
  | (k, v) :: t => bind (set2 k v m) (mput t)
  end.

(** Conversion of a float to an integer of an integer array: toward zero. *)
Definition trunc (q : Q) : Z := Z.quot (Qnum q) (Zpos (Qden q)).

(** [bool * float]. *)
Definition b2q (b : bool) : Q := if b then 1 else 0.

(** ** The simulator *)

(** One column of [self.appliances] (the dictionary of arrays). *)
Record app := App {
  ap_type : string;              (* 'type' *)
  ap_standby : Q;                (* 'standby_consumption' *)
  ap_power : Q;                  (* 'mean_elec_consumption' *)
  ap_variable : bool;            (* 'use_variable_loads' *)
  ap_duration : Q;               (* 'mean_duration' *)
  ap_delay : Z;                  (* 'after_cycle_delay' *)
  ap_water : bool;               (* 'uses_water' *)
  ap_flow : Q;                   (* 'mean_water_consumption' *)
  ap_off : bool;                 (* 'inactive_switch_off' *)
  ap_prob : Q;                   (* 'switch_on_prob_crest' *)
  ap_act : nat                   (* activities_inverse *)
}.

(** appliance_simulators.py lines 139-170 and 440-520: the arrays the
    simulator keeps.  [s_load_dur] is [load_duration], [s_load_id] is
    [corresponding_load_id], [s_loads] is [loads_dict]. *)
Record asim := ASim {
  s_apps : list app;
  s_own : list (list bool);      (* available_appliances *)
  s_left : list (list Q);        (* n_steps_left *)
  s_refresh : list (list Z);     (* n_steps_till_refresh *)
  s_load_dur : list (list nat);
  s_load_id : list (list nat);
  s_loads : list (string * list (list Q))
}.

Definition with_left (s : asim) (l : list (list Q)) : asim :=
  ASim (s_apps s) (s_own s) l (s_refresh s) (s_load_dur s) (s_load_id s) (s_loads s).
Definition with_refresh (s : asim) (r : list (list Z)) : asim :=
  ASim (s_apps s) (s_own s) (s_left s) r (s_load_dur s) (s_load_id s) (s_loads s).

(** appliance_simulators.py lines 207-238 [sample_available_appliances]; the
    'subgroup' and 'set_defined' algorithms are not modelled (they need the
    data loader).  [u h a] is the uniform draw of household h, appliance a. *)
Inductive sampling := Basic | Correlated | AllApps | Unknown_algo.
Definition sample_available_appliances (algo : sampling) (u : nat -> nat -> Q) (n_hh : nat) (equipped : list Q) :
  result (list (list bool)) :=
  match algo with
  | Basic => Ok (map (fun h => map2 (fun a p => Qltb (u h a) p) (seq 0 (length equipped)) equipped) (seq 0 n_hh))
  | Correlated => Err NotImplementedError
  | AllApps => Ok (repeat (repeat true (length equipped)) n_hh)
  | Unknown_algo => Err ValueError
  end.

(** appliance_simulators.py lines 554-569 [get_mask_available_appliances]. *)
Definition get_mask_available_appliances (s : asim) : list (list bool) :=
  mmap2 andb (mmap2 andb (s_own s) (map (map (fun l => Qle_bool l 0)) (s_left s)))
        (map (map (fun r => Z.leb r 0)) (s_refresh s)).

(** appliance_simulators.py lines 662-671 [get_current_usage]. *)
Definition get_current_usage (s : asim) : list (list bool) :=
  mmap2 andb (map (map (fun l => Qltb 0 l)) (s_left s)) (s_own s).

(** appliance_simulators.py lines 730-744 [_sample_durations_water_poisson] at
    one position, with the Poisson volume drawn for that position.  A zero flow
    gives a float infinity in numpy, which the model rejects. *)
Definition water_duration (a : app) (volume : nat) : result Q :=
  if Qeq_bool (ap_flow a) 0 then Err ZeroDivisionError
  else Ok (inject_Z (Z.of_nat volume) / ap_flow a).

(** appliance_simulators.py lines 703-728 [sample_durations] at one position:
    the mean duration, replaced by a Poisson sample for water appliances,
    replaced by the length of the load profile when there is one. *)
Definition sample_duration (s : asim) (vol : nat -> nat -> nat) (k : nat * nat) : result Q :=
  let '(h, j) := k in
  bind (vget (s_apps s) j) (fun a =>
  bind (if ap_water a then water_duration a (vol h j) else Ok (ap_duration a)) (fun d =>
  bind (mget (s_load_dur s) h j) (fun ld =>
  Ok (if (0 <? ld)%nat then inject_Z (Z.of_nat ld) else d)))).

(** Refresh value of one position for a cycle of [d] steps. *)
Definition refresh_after (a : app) (d : Q) : Z := trunc (d + inject_Z (ap_delay a)).

(** appliance_simulators.py lines 623-636 [_switch_on_constant_loads] and the
    first part (lines 1090-1101) of [OccupancyApplianceSimulator.switch_on]:
    store the cycle durations and the times till refresh. *)
Definition start_cycles (s : asim) (idx : list (nat * nat)) (ds : list Q) : result asim :=
  bind (mput (combine idx ds) (s_left s)) (fun left =>
  bind (mapM (fun kd : (nat * nat) * Q =>
                let '((h, j), d) := kd in
                bind (vget (s_apps s) j) (fun a => Ok ((h, j), refresh_after a d))) (combine idx ds)) (fun rs =>
  bind (mput rs (s_refresh s)) (fun refresh =>
  Ok (with_refresh (with_left s left) refresh)))).

Definition switch_on_constant_loads (s : asim) (vol : nat -> nat -> nat) (idx : list (nat * nat)) : result asim :=
  bind (mapM (sample_duration s vol) idx) (start_cycles s idx).

(** appliance_simulators.py lines 603-621 [_switch_on_variable_loads]. *)
Definition switch_on_variable_loads (s : asim) (idx : list (nat * nat)) : result asim :=
  bind (mapM (fun k : nat * nat => bind (mget (s_load_dur s) (fst k) (snd k))
                                        (fun ld => Ok (inject_Z (Z.of_nat ld)))) idx) (start_cycles s idx).

(** [mask_variable_loads], lines 588-591; an index outside the dictionary is
    not a variable load (np.isin). *)
Definition is_variable (s : asim) (k : nat * nat) : bool :=
  match nth_error (s_apps s) (snd k) with Some a => ap_variable a | None => false end.

(** appliance_simulators.py lines 571-601 [AppliancesSimulator.switch_on]. *)
Definition switch_on (s : asim) (vol : nat -> nat -> nat) (idx : list (nat * nat)) : result asim :=
  bind (switch_on_variable_loads s (filter (is_variable s) idx)) (fun s1 =>
  switch_on_constant_loads s1 vol (filter (fun k => negb (is_variable s k)) idx)).

(** appliance_simulators.py lines 655-659 [update_iteration_variables]. *)
Definition tick_left (l : Q) : Q := if Qltb 0 l then l - 1 else l.
Definition tick_refresh (r : Z) : Z := if Z.ltb 0 r then Z.pred r else r.
Definition update_iteration_variables (s : asim) : asim :=
  with_refresh (with_left s (map (map tick_left) (s_left s))) (map (map tick_refresh) (s_refresh s)).

(** appliance_simulators.py lines 642-653 [AppliancesSimulator.step]; the time
    kept by the parents is the subject of Time_Model.v. *)
Definition base_step (s : asim) : asim := update_iteration_variables s.

(** appliance_simulators.py lines 747-784 [_get_variable_loads_consumptions] at
    one position: the value of the load profile at the time in the cycle; a
    negative index counts from the end, as numpy does. *)
Definition py_index (n : nat) (i : Z) : result nat :=
  if (0 <=? i)%Z then (if (i <? Z.of_nat n)%Z then Ok (Z.to_nat i) else Err IndexError)
  else if (0 <=? i + Z.of_nat n)%Z then Ok (Z.to_nat (i + Z.of_nat n)) else Err IndexError.

Definition load_value (s : asim) (h j : nat) (a : app) (l : Q) : result Q :=
  match dget String.eqb (s_loads s) (ap_type a) with
  | None => Err KeyError
  | Some profiles =>
      bind (mget (s_load_id s) h j) (fun id =>
      bind (mget (s_load_dur s) h j) (fun ld =>
      bind (vget profiles id) (fun profile =>
      bind (py_index (length profile) (trunc (inject_Z (Z.of_nat ld) - l))) (fun i =>
      vget profile i))))
  end.

(** The usage is an argument: subclasses override [get_current_usage]. *)
Definition variable_loads_of (all_usage : list (list bool)) (s : asim) : result (list (list Q)) :=
  mapM (fun h =>
    bind (vget all_usage h) (fun usage =>
    mapM (fun j =>
      bind (vget (s_apps s) j) (fun a =>
      bind (vget usage j) (fun used =>
      if used && ap_variable a then bind (mget (s_left s) h j) (load_value s h j a) else Ok 0)))
      (seq 0 (length (s_apps s)))))
    (seq 0 (length (s_left s))).

(** appliance_simulators.py lines 674-701 [get_current_power_consumptions]. *)
Definition power_of (usage : list (list bool)) (s : asim) : result (list (list Q)) :=
  let standby := mmap2 Qmult (mrow (fun u a => b2q (negb u) * ap_standby a) usage (s_apps s)) (map (map b2q) (s_own s)) in
  let constant := mrow (fun u a => b2q u * ap_power a * b2q (negb (ap_variable a))) usage (s_apps s) in
  bind (variable_loads_of usage s) (fun variable =>
  Ok (mmap2 Qplus (mmap2 Qplus standby constant) variable)).

Definition get_current_power_consumptions (s : asim) : result (list (list Q)) := power_of (get_current_usage s) s.

(** appliance_simulators.py lines 786-788 [get_power_demand], also
    [get_thermal_gains] (790-793) and [get_energy_consumption] (796-798). *)
Definition get_power_demand (s : asim) : result (list Q) :=
  bind (get_current_power_consumptions s) (fun m => Ok (map qsum m)).

(** appliance_simulators.py lines 801-817 [get_current_water_consumptions]. *)
Definition get_current_water_consumptions (s : asim) : list (list Q) :=
  mrow (fun u a => b2q u * ap_flow a) (get_current_usage s) (s_apps s).

(** appliance_simulators.py lines 820-846 [get_dhw_heating_demand] from the
    water consumptions. *)
Definition dhw_heating_demand (water : list (list Q)) : list Q :=
  map (fun r => 4200 * (1000 * (qsum r / 1000 / 60))) water.

(** ** OccupancyApplianceSimulator *)

(** appliance_simulators.py lines 1111-1131 [_switch_on_water_fixtures] and
    1079-1109 [switch_on]: the durations of water fixtures are sampled a
    second time ([vol2]). *)
Definition is_water (s : asim) (k : nat * nat) : bool :=
  match nth_error (s_apps s) (snd k) with Some a => ap_water a | None => false end.

Definition switch_on_water_fixtures (s : asim) (vol : nat -> nat -> nat) (idx : list (nat * nat)) : result asim :=
  bind (mapM (fun k : nat * nat => bind (vget (s_apps s) (snd k)) (fun a => water_duration a (vol (fst k) (snd k)))) idx)
       (start_cycles s idx).

Definition occ_switch_on (s : asim) (vol vol2 : nat -> nat -> nat) (idx : list (nat * nat)) : result asim :=
  bind (switch_on_constant_loads s vol idx) (fun s1 =>
  switch_on_water_fixtures s1 vol2 (filter (is_water s) idx)).

(** appliance_simulators.py lines 1133-1153 [switch_off_inactive]. *)
Definition switch_off_inactive (s : asim) (occ : list Z) : asim :=
  let left := map2 (fun (n : Z) row => map2 (fun l a => if Z.eqb n 0 && ap_off a then 0 else l) row (s_apps s)) occ (s_left s) in
  let refresh := map2 (fun (n : Z) row => map2 (fun r a => if Z.eqb n 0 && ap_off a then Z.min r (ap_delay a) else r)
                                               row (s_apps s)) occ (s_refresh s) in
  with_refresh (with_left s left) refresh.

(** appliance_simulators.py lines 1181-1214 [get_switchon_probs].  [pdf] is
    [current_activity_pdf] (subgroup, activity, active occupancy).  Negative
    occupancies, which numpy would count from the end, are rejected. *)
Definition activity_probs (pdf : list (list (list Q))) (t : nat) (n : Z) : result (list Q) :=
  bind (vget pdf t) (fun acts =>
  if (n <? 0)%Z then Err IndexError else mapM (fun by_occ => vget by_occ (Z.to_nat n)) acts).

Definition get_switchon_probs (s : asim) (pdf : list (list (list Q))) (types : list nat) (occ : list Z) :
  result (list (list Q)) :=
  if negb (Nat.eqb (length types) (length occ)) then Err IndexError else
  bind (mapM (fun tn => activity_probs pdf (fst tn) (snd tn)) (combine types occ)) (fun hh_probs =>
  bind (mapM (fun probs => mapM (fun a => vget probs (ap_act a)) (s_apps s)) hh_probs) (fun per_app =>
  let out := map (map b2q) (get_mask_available_appliances s) in
  Ok (mmap2 Qmult (mrow (fun x a => x * ap_prob a) out (s_apps s)) per_app))).

(** [np.random.uniform(size=probs.shape) < probs]. *)
Definition draw_below (u : nat -> nat -> Q) (probs : list (list Q)) : list (list bool) :=
  map2 (fun h row => map2 (fun j p => Qltb (u h j) p) (seq 0 (length row)) row) (seq 0 (length probs)) probs.

(** appliance_simulators.py lines 1216-1252 [OccupancyApplianceSimulator.step].
    The activity profile in force during the step is an argument: it is read
    from a cyclic iterator every ten minutes. *)
Definition occ_step (s : asim) (pdf : list (list (list Q))) (types : list nat)
           (u : nat -> nat -> Q) (vol vol2 : nat -> nat -> nat) (occ : list Z) : result asim :=
  if negb (Nat.eqb (length occ) (length (s_left s))) then Err AssertionError else
  bind (get_switchon_probs s pdf types occ) (fun probs =>
  bind (occ_switch_on s vol vol2 (where2 (draw_below u probs))) (fun s1 =>
  Ok (base_step (switch_off_inactive s1 occ)))).

(** appliance_simulators.py lines 1156-1178 [get_current_water_consumptions] of
    the occupancy simulator. *)
Definition occ_water_consumptions (s : asim) : list (list Q) :=
  mrow (fun l a => b2q (Qle_bool 1 l) * ap_flow a
                   + l * b2q (Qltb 0 l && Qltb l 1) * ap_flow a) (s_left s) (s_apps s).

(** ** demod/utils/appliances.py *)

(** [str.split("_")]: the words between underscores. *)
Fixpoint split_us (s : string) : list string :=
  match s with
  | EmptyString => [EmptyString]
  | String c t =>
      if Ascii.eqb c "_"%char then EmptyString :: split_us t
      else match split_us t with
           | w :: ws => String c w :: ws
           | [] => [String c EmptyString]
           end
  end.

(** ["_".join(words)]. *)
Definition join_us (ws : list string) : string := String.concat "_"%string ws.

(** utils/appliances.py lines 31-46 [remove_start]; [None] is [False]. *)
Definition remove_start (s : string) : option string :=
  match split_us s with
  | _ :: (w :: ws) => Some (join_us (w :: ws))
  | _ => None
  end.

Definition str_in (x : string) (l : list string) : bool := existsb (String.eqb x) l.

(** utils/appliances.py lines 49-68 [find_closest_type].  The loop ends on
    [False] and on the empty string; [fuel] bounds the iterations and every
    iteration shortens the string, so the length of the string is enough
    (proved: [find_closest_type_fuel]). *)
Fixpoint closest_loop (fuel : nat) (s : string) (types : list string) : option string :=
  match s, fuel with
  | EmptyString, _ => None
  | _, O => None
  | _, S f =>
      if str_in s types then Some s
      else match remove_start s with None => None | Some s' => closest_loop f s' types end
  end.
Definition find_closest_type (s : string) (types : list string) : option string :=
  closest_loop (String.length s) s types.

(** [str(n)]. *)
Definition str_of_nat (n : nat) : string := NilEmpty.string_of_uint (Nat.to_uint n).

(** utils/appliances.py lines 71-159 [get_ownership_from_dict] and 214-304
    [get_target_from_dict] (the same code with another default key).
    [defaults] is the array of the default key. *)
Fixpoint from_dict_loop (i : nat) (types : list string) (defaults : list Q) (d : list (string * Q))
         (counter : list (string * nat)) : result (list Q) :=
  match types with
  | [] => Ok []
  | key :: rest =>
      match find_closest_type key (map fst d) with
      | None => bind (vget defaults i) (fun v =>
                bind (from_dict_loop (S i) rest defaults d counter) (fun out => Ok (v :: out)))
      | Some t =>
          let n := match dget String.eqb counter t with Some c => S c | None => 1%nat end in
          let name := if Nat.eqb n 1 then t else (t ++ "_" ++ str_of_nat n)%string in
          let v := match dget String.eqb d name with Some q => q | None => 0 end in
          bind (from_dict_loop (S i) rest defaults d (dset String.eqb counter t n)) (fun out => Ok (v :: out))
      end
  end.
Definition get_target_from_dict (types : list string) (defaults : list Q) (d : list (string * Q)) : result (list Q) :=
  from_dict_loop 0 types defaults d [].
Definition get_ownership_from_dict := get_target_from_dict.

(** utils/appliances.py lines 162-211
    [assign_ownership_from_prob1_and_number]; [number = None] is NaN.  [fuel]
    bounds the while loop; running out of it is reported as RecursionError. *)
Definition py_min (a b : Q) : Q := if Qltb b a then b else a.
Fixpoint floor_loop (fuel : nat) (remaining : Q) : result (list Q) :=
  if Qltb 1 remaining then
    match fuel with
    | O => Err RecursionError
    | S f => bind (floor_loop f (remaining - 1)) (fun t => Ok (py_min (remaining - 1) 1 :: t))
    end
  else Ok [].
Definition assign_ownership (prob1 : Q) (number : option Q) (algo : string) : result (list Q) :=
  let n := match number with Some n => n | None => prob1 end in
  if Qltb n prob1 || Qltb prob1 0 || Qltb 1 prob1 || Qltb n 0 then Err ValueError
  else if String.eqb algo "floor"%string then
    bind (floor_loop (Z.to_nat (Qceiling n)) (n - prob1)) (fun t =>
    Ok (prob1 :: py_min (n - prob1) 1 :: t))
  else Err ValueError.

(** utils/appliances.py lines 9-28 [merge_appliance_dict]: a dictionary of
    arrays and its 'number'. *)
Definition app_dict (A : Type) := (list (string * list A) * Z)%type.
Definition merge_appliance_dict {A} (d1 d2 : app_dict A) : app_dict A :=
  (fold_left (fun acc kv =>
     if String.eqb (fst kv) "number"%string then acc
     else match dget String.eqb (fst d2) (fst kv) with
          | None => acc
          | Some v2 => dset String.eqb acc (fst kv) (snd kv ++ v2)
          end) (fst d1) [], (snd d1 + snd d2)%Z).
