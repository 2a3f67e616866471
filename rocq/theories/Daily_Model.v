(** * Appliances driven by daily activity profiles
    (demod/simulators/appliance_simulators.py 860-1077, 1216-1252).

    How an [OccupancyApplianceSimulator] is set up, which activity profile it uses at
    which time, and how it changes the subgroups with the day.  One step with a given
    profile is [Appliance_Model.occ_step]; times are those of Time_Model.v.

    Simplifications: the subgroup dictionaries are held by the simulator (in Python
    they are the dictionaries of the caller, changed in place); two entries of the
    list that are one object are two equal values here, which makes no difference as
    all of them receive the same attribute.  Arrays are rectangular; a list of arrays
    of different shapes is a ValueError (np.asarray, or AxisError of np.moveaxis).
    The dtype of occupancies is not represented: they are integers. *)

From Coq Require Import String List ZArith QArith Bool Arith.
From Verif Require Import Prelude Parse_Model Time_Model Subgroup_Model Appliance_Model AppSetup_Model.
Import ListNotations.
Local Open Scope nat_scope.

(** A profile: DIM0 times, DIM1 active occupancies. *)
Notation profile := (list (list Q)).

(** The parts of [data] that are used: [load_activity_probability_profiles],
    [refresh_time] (microseconds of the day) and [step_size]. *)
Record data := Data { d_load : subgroup -> result (list (string * profile)); d_refresh : Z; d_step : Z }.

(** [subgroups_list], [activities_pdf_iterator] (its slices, DIM0 times, DIM1
    subgroups, DIM2 activities, DIM3 active occupancy, and the number of the next one),
    [current_activity_pdf] (None: not set) and the appliances. *)
Record daily := Daily {
  y_groups : list subgroup; y_slices : list (list (list (list Q))); y_next : nat;
  y_current : option (list (list (list Q))); y_app : asim }.

(** ** Labels of the activities *)

(** [_create_activities_labels], lines 997-1003: np.unique with return_inverse. *)
Definition activities_labels (related : list string) : list string := uniq String.compare related.
Definition activities_inverse (related : list string) : list nat :=
  map (fun r => index_in String.compare r (activities_labels related)) related.

Definition set_act (a : app) (k : nat) : app :=
  App (ap_type a) (ap_standby a) (ap_power a) (ap_variable a) (ap_duration a) (ap_delay a) (ap_water a) (ap_flow a) (ap_off a) (ap_prob a) k.

(** ** Profiles *)

(** Lines 1025-1035: the profile of each label, in the order of the labels; the
    KeyError becomes a ValueError (lines 1036-1052). *)
Definition profiles_of (labels : list string) (d : list (string * profile)) : result (list profile) :=
  mapM (fun lab => match dget String.eqb d lab with Some p => Ok p | None => Err ValueError end) labels.

Definition all_length {A : Type} (n : nat) (l : list (list A)) : bool := forallb (fun x => Nat.eqb (length x) n) l.

(** [np.moveaxis(np.asarray(probs), 2, 0)], lines 1025, 1056-1058. *)
Definition by_time (probs : list (list profile)) : result (list (list (list (list Q)))) :=
  match probs with
  | [] => Err ValueError
  | [] :: _ => Err ValueError
  | (p :: _) :: _ =>
      let n := length p in
      let k := match p with row :: _ => length row | [] => 0 end in
      if forallb (fun g => forallb (fun q => Nat.eqb (length q) n && all_length k q) g) probs
      then mapM (fun i => mapM (mapM (fun q => vget q i)) probs) (seq 0 n)
      else Err ValueError
  end.

(** [set_activity_pdf], lines 1011-1058: a new cycle, at its start. *)
Definition set_activity_pdf (D : data) (labels : list string) (u : daily) : result daily :=
  bind (mapM (d_load D) (y_groups u)) (fun dicts =>
  bind (mapM (profiles_of labels) dicts) (fun probs =>
  bind (by_time probs) (fun slices =>
  Ok (Daily (y_groups u) slices 0 (y_current u) (y_app u))))).

(** [update_subgroups_with_time], lines 1060-1077, at time [t], with the default flags
    of add_time. *)
Definition update_subgroups (t : Z) (u : daily) : result daily :=
  bind (mapM (fun g => add_time g t true false false false) (y_groups u)) (fun gs =>
  Ok (Daily gs (y_slices u) (y_next u) (y_current u) (y_app u))).

(** [on_before_refresh_time], lines 1004-1009, at time [t] with step size [dt]. *)
Definition on_refresh (D : data) (labels : list string) (t dt : Z) (u : daily) : result daily :=
  bind (update_subgroups (t + dt) u) (set_activity_pdf D labels).

(** ** Steps *)

(** [next] of an [itertools.cycle]. *)
Definition next_slice (u : daily) : result daily :=
  match nth_error (y_slices u) (y_next u) with
  | None => Err StopIteration
  | Some x => Ok (Daily (y_groups u) (y_slices u) (Nat.modulo (S (y_next u)) (length (y_slices u))) (Some x) (y_app u))
  end.

(** What is given to a step: the random numbers of [occ_step] and the occupancies. *)
Record step_in := StepIn { in_u : nat -> nat -> Q; in_vol : nat -> nat -> nat; in_vol2 : nat -> nat -> nat; in_occ : list Z }.

(** [datetime.minute]. *)
Definition minute_at (t : Z) : Z := (time_of_day t / 60000000 mod 60)%Z.

(** The body of [step], lines 1217-1252, at time [t]; [types] is [hh_types]. *)
Definition step_body (types : list nat) (i : step_in) (t : Z) (u : daily) : result daily :=
  if negb (Nat.eqb (length (in_occ i)) (length types)) then Err AssertionError else
  bind (if Z.eqb (minute_at t mod 10) 0 then next_slice u else Ok u) (fun u1 =>
  match y_current u1 with
  | None => Err AttributeError
  | Some pdf =>
      bind (occ_step (y_app u1) pdf types (in_u i) (in_vol i) (in_vol2 i) (in_occ i)) (fun a =>
      Ok (Daily (y_groups u1) (y_slices u1) (y_next u1) (y_current u1) a))
  end).

(** The step decorated with [Callbacks.before_refresh_time]. *)
Definition daily_step (D : data) (labels : list string) (types : list nat) (i : step_in) (s : tsim daily) : result (tsim daily) :=
  decorated BeforeRefresh (d_refresh D) (on_refresh D labels (now s) (step_size s)) (tstep (step_body types i (now s))) s.

Fixpoint daily_run (D : data) (labels : list string) (types : list nat) (l : list step_in) (s : tsim daily) : result (tsim daily) :=
  match l with
  | [] => Ok s
  | i :: rest => bind (daily_step D labels types i s) (daily_run D labels types rest)
  end.

(** ** Set-up *)

(** [initialize_starting_state], lines 955-981: profiles for the day of the start, then
    steps from the last refresh time on.  [ins] gives the random numbers of each of
    them; [occ] is [initial_active_occupancy].  [u0] holds the appliances as set by the
    parent class (n_steps_left, n_steps_till_refresh). *)
Definition start_daily (D : data) (labels : list string) (types : list nat) (dt start : Z) (occ : option (list Z))
    (ins : Z -> step_in) (u0 : daily) : result (tsim daily) :=
  bind (update_subgroups start u0) (fun u1 =>
  bind (set_activity_pdf D labels u1) (fun u2 =>
  let o := match occ with Some l => l | None => repeat 1%Z (length types) end in
  t_initialize (AtTime (d_refresh D))
    (fun s => let i := ins (ticks s) in daily_step D labels types (StepIn (in_u i) (in_vol i) (in_vol2 i) o) s)
    (mkT start dt 0 u2))).

(** [__init__], lines 913-953.  [own] is the sampling of the ownership (see
    AppSetup_Model.v) for the subgroup numbers of the households; [apps] and [related]
    come from [load_appliance_dict].  [initialization_time] among the other arguments is
    dropped (line 965).  The result holds [hh_types] and the simulator. *)
Definition make_daily (D : data) (step : option Z) (start : Z) (subs : list subgroup) (counts : list Z)
    (apps : list app) (related : list string) (own : list nat -> result (list (list bool))) (algo : profiles_algo)
    (switched full : result real_loads) (pick1 pick2 : nat -> nat -> nat) (wait : nat -> nat -> Z)
    (occ : option (list Z)) (ins : Z -> step_in) : result (list nat * tsim daily) :=
  bind (parse_subgroups [] (Z.to_nat (zsum counts)) (Some subs) (Some counts)) (fun st =>
  let '(groups, types) := st in
  let dt := match step with Some s => s | None => d_step D end in
  if negb (Z.eqb dt (d_step D)) then Err ValueError else
  bind (own types) (fun owned =>
  bind (make_occupancy_appliances (map2 set_act apps (activities_inverse related)) related owned algo switched full pick1 pick2 wait) (fun a =>
  bind (start_daily D (activities_labels related) types dt start occ ins (Daily groups [] 0 None a)) (fun s =>
  Ok (types, s))))).
