(** * Appliances driven by activities
    (demod/simulators/appliance_simulators.py 1271-1493).

    The counts of residents performing an activity are one list of integers for each
    activity, in the order of the dictionary.  Count arrays whose length is not the
    number of households are rejected by the model of [step] (numpy compares them
    according to its version). *)

From Coq Require Import String List ZArith QArith Bool Arith.
From Verif Require Import Prelude Parse_Model Appliance_Model AppSetup_Model.
Import ListNotations.
Local Open Scope nat_scope.

(** [self.appliances\['related_activity'\]], [_is_used], [previous_act_dict]. *)
Record actsim : Type := ActSim { a_base : asim; a_related : list string; a_used : list (list bool); a_prev : list (string * list Z) }.

(** [_remove_non_compatible_appliances], lines 1339-1373: the mask of the appliances
    that are kept.  [probabilistic] is None without such a key. *)
Definition compatible_mask (related : list string) (probabilistic : option (list bool)) (keys : list string) : list bool :=
  let mask := map (fun r => str_in r keys || always_on r) related in
  match probabilistic with None => mask | Some p => map2 (fun b q => b && negb q) mask p end.

(** [np.where(hh\[:, np.newaxis\] & apps\[np.newaxis, :\])]; also the pairs of
    [np.repeat] and [np.tile] of lines 1397-1400. *)
Definition cross (hh apps : list bool) : list (nat * nat) := where2 (map (fun b => map (andb b) apps) hh).

(** [switch_on] (lines 571-601) with the overrides of lines 1477-1483. *)
Definition act_switch_on (st : actsim) (idx : list (nat * nat)) : result actsim :=
  bind (switch_on_variable_loads (a_base st) (filter (is_variable (a_base st)) idx)) (fun s =>
  bind (mput (map (fun k => (k, true)) idx) (a_used st)) (fun used =>
  Ok (ActSim s (a_related st) used (a_prev st)))).

(** [switch_off], lines 1485-1488. *)
Definition act_switch_off (st : actsim) (idx : list (nat * nat)) : result actsim :=
  bind (mput (map (fun k => (k, false)) idx) (a_used st)) (fun used => Ok (ActSim (a_base st) (a_related st) used (a_prev st))).

(** [update_iteration_variables], lines 1461-1475. *)
Definition reload_mask (s : asim) : list (list bool) :=
  mrow (fun l a => Qltb 0 l && negb (Qltb 0 (tick_left l)) && ap_variable a) (s_left s) (s_apps s).
Definition act_tick (s : asim) : asim :=
  let reload := mmap2 pair (reload_mask s) (s_load_dur s) in
  let s1 := update_iteration_variables s in
  with_refresh
    (with_left s1 (mmap2 (fun (bd : bool * nat) l => if fst bd then (l + inject_Z (Z.of_nat (snd bd)))%Q else l) reload (s_left s1)))
    (mmap2 (fun (bd : bool * nat) r => if fst bd then (r + Z.of_nat (snd bd))%Z else r) reload (s_refresh s1)).

(** One turn of the loop of [step], lines 1425-1454. *)
Definition act_turn (st : actsim) (item : string * list Z) : result actsim :=
  let '(act, now) := item in
  let mask := map (String.eqb act) (a_related st) in
  if negb (existsb (fun b => b) mask) then Ok st else
  match dget String.eqb (a_prev st) act with
  | None => Err KeyError
  | Some before =>
      let n := length (s_own (a_base st)) in
      if negb (Nat.eqb (length before) n && Nat.eqb (length now) n) then Err ValueError else
      let stops := map2 (fun p c => negb (Z.eqb p c) && Z.eqb c 0) before now in
      let starts := map2 (fun p c => negb (Z.eqb p c) && Z.eqb p 0) before now in
      bind (act_switch_off st (cross stops (map2 andb mask (map ap_off (s_apps (a_base st)))))) (fun st1 =>
      act_switch_on st1 (cross starts mask))
  end.

(** [step], lines 1416-1459. *)
Definition act_step (st : actsim) (acts : list (string * list Z)) : result actsim :=
  bind (fold_result act_turn acts st) (fun st1 =>
  Ok (ActSim (act_tick (a_base st1)) (a_related st1) (a_used st1) acts)).

(** [initialize_starting_state], lines 1375-1406, after the parent's. *)
Definition init_turn (st : actsim) (item : string * list Z) : result actsim :=
  act_switch_on st (cross (map (Z.ltb 0) (snd item)) (map (String.eqb (fst item)) (a_related st))).

Definition init_activity (s : asim) (related : list string) (acts : list (string * list Z)) : result actsim :=
  bind (fold_result init_turn acts (ActSim s related (map (map (fun _ => false)) (s_own s)) acts)) (fun st =>
  Ok (ActSim (act_tick (a_base st)) related (mrow (fun b r => b || always_on r) (a_used st) related) acts)).

(** The constructor, lines 1311-1337, for the appliances kept. *)
Definition make_activity (apps : list app) (related : list string) (own : list (list bool)) (algo : profiles_algo)
    (switched full : result real_loads) (pick1 pick2 start : nat -> nat -> nat) (wait : nat -> nat -> Z)
    (acts : list (string * list Z)) : result actsim :=
  bind (make_appliances apps related own algo switched full pick1 pick2 start wait) (fun s => init_activity s related acts).

(** [get_current_usage], lines 1490-1493, and the inherited readings. *)
Definition act_usage (st : actsim) : list (list bool) := mmap2 andb (a_used st) (s_own (a_base st)).
Definition act_power (st : actsim) : result (list (list Q)) := power_of (act_usage st) (a_base st).
