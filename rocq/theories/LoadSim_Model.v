(** * Model of LoadSimulator (demod/simulators/load_simulators.py:26-374).

    LoadSimulator owns five simulators and forwards their methods.  The five are
    arbitrary here: a type of states with the methods LoadSimulator calls; each
    step may raise.  The random draws of a simulator belong to its state.
    Warnings are not modelled. *)

From Coq Require Import String List ZArith QArith Bool Arith.
From Verif Require Import Prelude Base_Model Sampling_Model.
Import ListNotations.
Local Open Scope nat_scope.

Set Implicit Arguments.

(** [a + b] of one-dimensional numpy arrays, with broadcasting of length one. *)
Definition np_add (a b : list Q) : result (list Q) :=
  if length a =? length b then Ok (map2 Qplus a b)
  else match a, b with
       | [x], _ => Ok (map (Qplus x) b)
       | _, [y] => Ok (map (fun x => Qplus x y) a)
       | _, _ => Err ValueError
       end.

(** Arguments of the heating step, lines 323-343. *)
Record heat_in (X : Type) : Type := mkHeatIn {
  outside_temperature : Q;
  heat_irradiance : Q;
  dhw_heating_demand : list Q;
  occupancy_gains : list Q;
  lighting_gains : list Q;
  appliance_gains : list Q;
  heat_external : X                (* the five external_* arguments, passed through *)
}.

(** Arguments of LoadSimulator.step, lines 264-276. *)
Record load_args (X : Type) : Type := mkArgs {
  external_temperature : option Q;
  external_irradiance : option Q;
  external_heat : X
}.

Section Load.
  Variables (Cl Ac Ap Li He X : Type).

  (** The methods of the five simulators called by LoadSimulator. *)
  Record parts : Type := mkParts {
    cl_step : Cl -> result Cl;
    cl_temperature : Cl -> Q;
    cl_irradiance : Cl -> Q;
    ac_step : Ac -> result Ac;
    ac_occupancy : Ac -> list Q;
    ac_gains : Ac -> list Q;
    ap_step : list Q -> Ap -> result Ap;
    ap_power : Ap -> list Q;
    ap_dhw : Ap -> list Q;
    ap_gains : Ap -> list Q;
    li_step : list Q * Q -> Li -> result Li;
    li_power : Li -> list Q;
    li_gains : Li -> list Q;
    he_step : heat_in X -> He -> result He;
    he_power : He -> list Q;
    he_total : He -> list Q;
    he_dhw : He -> list Q;
    he_sh : He -> list Q;
    he_temperatures : He -> list (string * simple)
  }.

  (** Attributes of a LoadSimulator; [climate] / [heating] are [None] when not
      included. *)
  Record load : Type := mkLoad {
    n_hh : nat;
    climate : option Cl;
    activity : Ac;
    appliances : Ap;
    light : Li;
    heating : option He
  }.

  Variable P : parts.

  (** Lines 284-285: the climate moves first. *)
  Definition climate_moves (cl : option Cl) : result (option Cl) :=
    match cl with
    | None => Ok None
    | Some k => bind (cl_step P k) (fun k' => Ok (Some k'))
    end.

  (** Lines 287-309: external value if given, else the climate simulator's;
      without climate simulator both external values are required. *)
  Definition weather (a : load_args X) (cl : option Cl) : result (Q * Q) :=
    match cl, external_temperature a, external_irradiance a with
    | None, Some t, Some i => Ok (t, i)
    | None, _, _ => Err ValueError
    | Some k, t, i =>
        Ok (match t with Some t => t | None => cl_temperature P k end,
            match i with Some i => i | None => cl_irradiance P k end)
    end.

  (** LoadSimulator.step before [super().step()], lines 284-343; [c] is
      [current_time_step]. *)
  Definition load_pre (a : load_args X) (c : nat) (s : load) : result load :=
    bind (climate_moves (climate s)) (fun cl =>
    bind (weather a cl) (fun ti =>
    bind (if c mod 10 =? 0 then ac_step P (activity s) else Ok (activity s)) (fun ac =>
    bind (ap_step P (ac_occupancy P ac) (appliances s)) (fun ap =>
    bind (li_step P (ac_occupancy P ac, snd ti) (light s)) (fun li =>
    bind (match heating s with
          | None => Ok None
          | Some h =>
              bind (he_step P
                (mkHeatIn (fst ti) (snd ti) (ap_dhw P ap) (ac_gains P ac) (li_gains P li)
                          (ap_gains P ap) (external_heat a)) h) (fun h' => Ok (Some h'))
          end) (fun he =>
    Ok (mkLoad (n_hh s) cl ac ap li he))))))).

  (** get_power_demand without its decorator, lines 347-359. *)
  Definition power_demand (s : load) : result (list Q) :=
    bind (np_add (ap_power P (appliances s)) (li_power P (light s))) (fun e =>
    np_add e (match heating s with
              | Some h => he_power P h
              | None => repeat (0%Q) (n_hh s)
              end)).

  Definition arr (r : result (list Q)) : result value := bind r (fun l => Ok (VS (SArr l))).

  (** The getters, lines 347-374; without heating [self.heating] does not exist. *)
  Definition load_raw (s : load) (_ : nat) (name : string) : result value :=
    if String.eqb name "get_power_demand" then arr (power_demand s)
    else match heating s with
         | None => Err AttributeError
         | Some h =>
             if String.eqb name "get_total_heat_demand" then arr (Ok (he_total P h))
             else if String.eqb name "get_dhw_heat_demand" then arr (Ok (he_dhw P h))
             else if String.eqb name "get_sh_heat_demand" then arr (Ok (he_sh P h))
             else if String.eqb name "get_temperatures" then Ok (VD (he_temperatures P h))
             else Err AttributeError
         end.

  (** Which getters are decorated: all but get_temperatures. *)
  Definition load_cached (name : string) : bool := negb (String.eqb name "get_temperatures").

  Definition load_run := run load_pre no_post load_raw load_cached.
  Definition load_exec := exec load_pre no_post load_raw load_cached.

  (** ** Construction, lines 186-262 *)

  (** _instantiate_activity_simulator / _instantiate_climate, lines 26-88: the
      second class is tried only when the first raises NotImplementedError. *)
  Definition instantiate {T} (first second : result T) : result T :=
    match first with
    | Ok x => Ok x
    | Err NotImplementedError =>
        match second with
        | Ok x => Ok x
        | Err NotImplementedError => Err NotImplementedError
        | Err e => Err e
        end
    | Err e => Err e
    end.

  (** The constructors, as functions of the arguments that matter. *)
  Record makers : Type := mkMakers {
    mk_activity1 : list nat -> result Ac;          (* SubgroupsActivitySimulator(counts) *)
    mk_activity2 : nat -> result Ac;               (* Crest4StatesModel(sum(counts)) *)
    mk_appliances : list nat -> list Q -> result Ap;
    mk_climate1 : result Cl;
    mk_climate2 : result Cl;
    mk_light : nat -> result Li;
    mk_heating : nat -> Q -> result He
  }.

  Definition sum_nat (l : list nat) : nat := fold_right Nat.add 0 l.

  (** LoadSimulator.__init__; [n] is the n_households argument ([None]: not
      castable to an integer), [pdf] the shares returned by
      load_population_subgroups.  The cache starts empty and the counter at zero
      (initialize_starting_state at the start time makes no step; [none] stands for
      five missing external arguments). *)
  Definition make_load (M : makers) (n : option Z) (pdf : list Q)
      (include_heating include_climate : bool) (initial_temperature : Q) (none : X) (lg : option logger)
    : result (sim load) :=
    bind (simulator_check n) (fun n =>
    bind (sample_population n pdf RealPopulation []) (fun counts =>
    bind (instantiate (mk_activity1 M counts) (mk_activity2 M (sum_nat counts))) (fun ac =>
    bind (mk_appliances M counts (ac_occupancy P ac)) (fun ap =>
    bind (if include_climate
          then bind (instantiate (mk_climate1 M) (mk_climate2 M)) (fun k => Ok (Some k))
          else Ok None) (fun cl =>
    bind (mk_light M n) (fun li =>
    bind (if include_heating
          then bind (mk_heating M n (match cl with
                                     | Some k => cl_temperature P k
                                     | None => initial_temperature
                                     end)) (fun h => Ok (Some h))
          else Ok None) (fun he =>
    initialize load_pre no_post load_raw load_cached (StartInt 0)
      (mkArgs None None none) (mkSim (mkLoad n cl ac ap li he) 0 [] lg)))))))).
End Load.
