(** * Appliances at the start of a simulation
    (demod/simulators/appliance_simulators.py 110-308, 310-551).

    Which household owns which appliance, which load profile it follows and where
    in the profile it starts.  Random numbers are explicit arguments, one per
    household and appliance.  Warnings are not represented. *)

From Coq Require Import String List ZArith QArith Bool Arith.
From Verif Require Import Prelude Parse_Model Appliance_Model.
Import ListNotations.
Local Open Scope nat_scope.

(** [ALWAYS_ON_ACTIVITES], line 35. *)
Definition always_on (activity : string) : bool := str_in activity ["level"%string; "constant"%string].

(** ** Households and subgroups *)

Fixpoint numbered (i : nat) (counts : list Z) : list nat :=
  match counts with
  | [] => []
  | c :: t => repeat i (Z.to_nat c) ++ numbered (S i) t
  end.

Definition zsum (l : list Z) : Z := fold_right Z.add 0%Z l.

(** [_parse_subgroups], lines 280-308: the subgroups and the subgroup number of each
    household.  The lengths of the two lists are not compared.  np.ones rejects
    negative sizes and np.concatenate an empty list. *)
Definition parse_subgroups {S : Type} (none : S) (n : nat) (subgroups : option (list S)) (counts : option (list Z)) :
    result (list S * list nat) :=
  match subgroups, counts with
  | None, None => Ok ([none], repeat 0 n)
  | Some subs, Some cs =>
      if negb (Z.eqb (zsum cs) (Z.of_nat n)) then Err ValueError
      else if existsb (fun c => Z.ltb c 0) cs then Err ValueError
      else match cs with [] => Err ValueError | _ => Ok (subs, numbered 0 cs) end
  | _, _ => Err AttributeError
  end.

(** ** Ownership *)

(** [_sample_from_subgroup], lines 256-278; one dictionary per subgroup. *)
Definition sample_from_subgroup (u : nat -> nat -> Q) (types : list string) (defaults : list Q)
    (dicts : list (list (string * Q))) (hh_types : list nat) : result (list (list bool)) :=
  bind (mapM (get_ownership_from_dict types defaults) dicts) (fun probs =>
  bind (mapM (vget probs) hh_types) (fun available => Ok (draw_below u available))).

(** [_appliance_set], lines 240-252; [sets] is [equipped_set_defined] (None: the
    default), one list of names for each subgroup. *)
Definition appliance_set (names : list string) (sets : option (list (list string))) (n_subgroups : nat) (hh_types : list nat) :
    result (list (list bool)) :=
  bind (mapM (fun n => match sets with
                       | None => Err TypeError
                       | Some l => bind (vget l n) (fun set => Ok (map (fun name => str_in name set) names))
                       end) (seq 0 n_subgroups)) (fun rows =>
  mapM (vget rows) hh_types).

(** ** Load profiles *)

(** What [load_real_profiles_dict] returns: profiles by name by type. *)
Notation real_loads := (list (string * list (string * list Q))).

(** 'use_variable_loads', [corresponding_load_id], [load_duration], [loads_dict]. *)
Record loads : Type := mkLoads { l_variable : list bool; l_id : list (list nat); l_dur : list (list nat); l_dict : list (string * list (list Q)) }.

Definition pad (n : nat) (l : list Q) : list Q := l ++ repeat 0%Q (n - length l).

(** One turn of the loops of lines 419-454 and 493-524.  [pick] is the number drawn
    from 0 .. number of profiles - 1. *)
Definition of_type (types : list string) (t : string) (k : nat * nat) : bool :=
  match nth_error types (snd k) with Some t' => String.eqb t' t | None => false end.

Definition assign_type (own : list (list bool)) (types : list string) (real : real_loads) (pick : nat -> nat -> nat)
    (L : loads) (t : string) : result loads :=
  match dget String.eqb real t with
  | None => Ok L
  | Some [] => Err ValueError
  | Some profiles =>
      let ps := map snd profiles in
      let pos := filter (of_type types t) (where2 own) in
      bind (mput (map (fun k => (k, pick (fst k) (snd k))) pos) (l_id L)) (fun ids =>
      bind (mapM (fun k : nat * nat => bind (vget ps (pick (fst k) (snd k))) (fun p => Ok (k, length p))) pos) (fun ds =>
      bind (mput ds (l_dur L)) (fun durs =>
      Ok (mkLoads (l_variable L) ids durs (dset String.eqb (l_dict L) t (map (pad (list_max_nat (map (@length Q) ps))) ps))))))
  end.

Fixpoint fold_result {A B : Type} (f : A -> B -> result A) (l : list B) (a : A) : result A :=
  match l with [] => Ok a | x :: t => bind (f a x) (fold_result f t) end.

(** [_sample_switched_on_load_profiles] (lines 383-460, [always] false) and
    [_sample_always_on_load_profiles] (lines 462-530, [always] true).  The types are
    visited in another order than by np.unique, each of them once. *)
Definition kind_mask (always : bool) (types related : list string) (real : real_loads) : list bool :=
  map2 (fun t r => str_in t (map fst real) && Bool.eqb (always_on r) always) types related.

Definition sample_kind (always : bool) (own : list (list bool)) (types related : list string) (real : real_loads)
    (pick : nat -> nat -> nat) (L : loads) : result loads :=
  let mask := kind_mask always types related real in
  let L1 := mkLoads (map2 orb (l_variable L) mask) (l_id L) (l_dur L) (l_dict L) in
  fold_result (assign_type own types real pick) (nodup string_dec (compress mask types)) L1.

Inductive profiles_algo : Set := Nothing | OnlyAlwaysOn | OnlySwitchedOn | Uniform | OtherAlgo.

(** [sample_real_load_profiles], lines 310-381.  [switched] and [full] are the results
    of the loader, called only when needed. *)
Definition sample_real_load_profiles (algo : profiles_algo) (own : list (list bool)) (types related : list string)
    (switched full : result real_loads) (pick1 pick2 : nat -> nat -> nat) : result loads :=
  let zero := map (map (fun _ => 0)) own in
  let L0 := mkLoads (map (fun _ => false) types) zero zero [] in
  match algo with
  | Nothing => Ok L0
  | OnlyAlwaysOn => bind full (fun real => sample_kind true own types related real pick2 L0)
  | OnlySwitchedOn => bind switched (fun real => sample_kind false own types related real pick1 L0)
  | Uniform =>
      bind (bind switched (fun real => sample_kind false own types related real pick1 L0)) (fun L1 =>
      bind full (fun real => sample_kind true own types related real pick2 L1))
  | OtherAlgo => Err ValueError
  end.

(** ** Initial state *)

(** [_initialize_real_loads], lines 532-551, called when no appliance is in use;
    [start] is drawn from 1 .. load duration - 1, which raises when this is empty. *)
Definition initial_left (related : list string) (durs : list (list nat)) (start : nat -> nat -> nat) : result (list (list Q)) :=
  mapM (fun h =>
    bind (vget durs h) (fun row =>
    mapM (fun j =>
      bind (vget row j) (fun d =>
      bind (vget related j) (fun act =>
      if (0 <? d) && always_on act then if 1 <? d then Ok (inject_Z (Z.of_nat (start h j))) else Err ValueError
      else Ok 0%Q)))
      (seq 0 (length related))))
    (seq 0 (length durs)).

(** Lines 156-165: the delays before the first use, drawn from 0 .. delay - 1. *)
Definition initial_refresh (n : nat) (apps : list app) (wait : nat -> nat -> Z) : list (list Z) :=
  map (fun h => map2 (fun j a => if Z.ltb 0 (ap_delay a) then wait h j else 0%Z) (seq 0 (length apps)) apps) (seq 0 n).

Definition set_variable (a : app) (b : bool) : app :=
  App (ap_type a) (ap_standby a) (ap_power a) b (ap_duration a) (ap_delay a) (ap_water a) (ap_flow a) (ap_off a) (ap_prob a) (ap_act a).

(** [AppliancesSimulator.__init__] after the ownership was sampled, followed by
    [initialize_starting_state] (lines 110-170), without initialization steps;
    [first_left] is [_initialize_real_loads]. *)
Definition make_with (first_left : loads -> result (list (list Q))) (apps : list app) (related : list string) (own : list (list bool))
    (algo : profiles_algo) (switched full : result real_loads) (pick1 pick2 : nat -> nat -> nat) (wait : nat -> nat -> Z) : result asim :=
  bind (sample_real_load_profiles algo own (map ap_type apps) related switched full pick1 pick2) (fun L =>
  bind (first_left L) (fun left =>
  Ok (ASim (map2 set_variable apps (l_variable L)) own left (initial_refresh (length own) apps wait) (l_dur L) (l_id L) (l_dict L)))).

Definition make_appliances (apps : list app) (related : list string) (own : list (list bool)) (algo : profiles_algo)
    (switched full : result real_loads) (pick1 pick2 start : nat -> nat -> nat) (wait : nat -> nat -> Z) : result asim :=
  make_with (fun L => initial_left related (l_dur L) start) apps related own algo switched full pick1 pick2 wait.

(** [OccupancyApplianceSimulator]: its [_initialize_real_loads] (lines 983-996) only
    looks at appliances in use, and none is. *)
Definition make_occupancy_appliances (apps : list app) (related : list string) (own : list (list bool)) (algo : profiles_algo)
    (switched full : result real_loads) (pick1 pick2 : nat -> nat -> nat) (wait : nat -> nat -> Z) : result asim :=
  make_with (fun L => Ok (map (map (fun _ => 0%Q)) own)) apps related own algo switched full pick1 pick2 wait.
