(** * Appliances started at random by activities
    (demod/simulators/appliance_simulators.py 1496-1968).

    The counts of residents performing an activity are one list of integers for each
    activity, as in ActApp_Model.v.  [get_current_usage] is inherited with its
    [cached_getter] decorator, and [step] itself calls it: the cached value is part of
    the state.  Missing entries of the columns 'previous_activity' and
    'previous_appliance_type' are the string 'nan'.  Random numbers are arguments. *)

From Coq Require Import String List ZArith QArith Bool Arith.
From Verif Require Import Prelude Parse_Model Appliance_Model AppSetup_Model ActApp_Model.
Import ListNotations.
Local Open Scope nat_scope.

(** ** Probabilities

    Results of a float division: infinite when a positive number is divided by zero.
    [Nan] also stands for minus infinity; no draw is below either of them. *)
Inductive chance : Set := Fin (q : Q) | Inf | Nan.

Definition chance_div (a b : Q) : chance :=
  if Qeq_bool b 0 then (if Qltb 0 a then Inf else Nan) else Fin (a / b).

(** [bool * float]. *)
Definition gate (b : bool) (c : chance) : chance :=
  match c with Fin q => Fin (b2q b * q) | Inf => if b then Inf else Nan | Nan => Nan end.

(** [np.random.uniform(...) < p]. *)
Definition drawn (u : Q) (c : chance) : bool :=
  match c with Fin q => Qltb u q | Inf => true | Nan => false end.

(** ** The simulator *)

(** [p_after] and [p_follows] are the columns 'previous_activity' and
    'previous_appliance_type' (None without such a key), [p_probs] is
    [switch_on_probs], [p_prev] is [previous_act_dict], [p_seen] is the entry of
    [get_current_usage] in [_cache]. *)
Record probsim : Type := ProbSim {
  p_base : asim;
  p_related : list string;
  p_after : option (list string);
  p_follows : option (list string);
  p_probs : list (list chance);
  p_prev : list (string * list Z);
  p_seen : option (list (list bool))
}.

Definition with_base (st : probsim) (s : asim) : probsim :=
  ProbSim s (p_related st) (p_after st) (p_follows st) (p_probs st) (p_prev st) (p_seen st).

(** [get_current_usage], lines 662-671, through [cached_getter]
    (base_simulators.py 16-36). *)
Definition usage_read (st : probsim) : list (list bool) :=
  match p_seen st with Some u => u | None => get_current_usage (p_base st) end.
Definition look (st : probsim) : probsim :=
  ProbSim (p_base st) (p_related st) (p_after st) (p_follows st) (p_probs st) (p_prev st) (Some (usage_read st)).

(** [get_current_power_consumptions], lines 674-701, computed from the cached usage.
    Its own entry in the cache lives as long as that of the usage. *)
Definition prob_power (st : probsim) : result (list (list Q)) := power_of (usage_read st) (p_base st).

(** [_assign_dictated_start], lines 1574-1586: is the number in
    [apps_dictated_start]? *)
Definition is_nan (s : string) : bool := String.eqb s "nan".
Definition named (col : option (list string)) (j : nat) : bool :=
  match col with
  | None => false
  | Some l => match nth_error l j with Some s => negb (is_nan s) | None => false end
  end.
Definition dictated (st : probsim) (j : nat) : bool := named (p_follows st) j || named (p_after st) j.

(** Random numbers of a step: the uniform draw for the appliance that follows the
    stopped appliance (household, stopped appliance); the draws for the appliances
    that follow an activity and for the others; and the volumes of water drawn in the
    three calls of [switch_on]. *)
Record pdraws : Type := PDraws {
  d_follow : nat -> nat -> Q;
  d_after : string -> nat -> nat -> Q;
  d_act : string -> nat -> nat -> Q;
  w_follow : nat -> nat -> nat;
  w_after : string -> nat -> nat -> nat;
  w_act : string -> nat -> nat -> nat
}.

(** Lines 1786-1793: the counters and the appliances whose cycle ends. *)
Definition ended_mask (s : asim) : list (list bool) :=
  map (map (fun l => Qltb 0 l && negb (Qltb 0 (tick_left l)))) (s_left s).

(** [switch_off], lines 1882-1888. *)
Definition prob_switch_off (s : asim) (idx : list (nat * nat)) : result asim :=
  bind (mput (map (fun k => (k, 0%Q)) idx) (s_left s)) (fun left =>
  bind (mapM (fun k : nat * nat => bind (vget (s_apps s) (snd k)) (fun a => Ok (k, ap_delay a))) idx) (fun rs =>
  bind (mput rs (s_refresh s)) (fun refresh =>
  Ok (with_refresh (with_left s left) refresh)))).

(** [_compute_switch_on_probs_for_one_time] (lines 1867-1880) and
    [_compute_switch_on_probs] (lines 1849-1865) at one position. *)
Definition one_time_prob (st : probsim) (usage : list (list bool)) (k : nat * nat) : result chance :=
  bind (mget usage (fst k) (snd k)) (fun used =>
  bind (mget (p_probs st) (fst k) (snd k)) (fun p => Ok (gate (negb used) p))).
Definition activity_start_prob (st : probsim) (usage : list (list bool)) (k : nat * nat) : result chance :=
  bind (mget usage (fst k) (snd k)) (fun used =>
  bind (mget (p_probs st) (fst k) (snd k)) (fun p => Ok (gate (negb used && negb (dictated st (snd k))) p))).

(** The positions whose draw is below their probability. *)
Definition sampled {K : Type} (u : K -> Q) (prob : K -> result chance) (l : list K) : result (list K) :=
  bind (mapM prob l) (fun ps => Ok (compress (map2 (fun k p => drawn (u k) p) l ps) l)).

(** Comparison of two one dimensional arrays.  Without a common shape old versions of
    numpy return False, on which [sum] raises a TypeError; new versions raise. *)
Definition same_strings (a b : list string) : result (list bool) :=
  if Nat.eqb (length a) (length b) then Ok (map2 String.eqb a b) else
  match a, b with
  | [x], _ => Ok (map (String.eqb x) b)
  | _, [y] => Ok (map (fun x => String.eqb x y) a)
  | _, _ => Err ValueError
  end.

(** [ids * np.ones(s, dtype=int)]. *)
Definition times_ones (ids : list nat) (s : nat) : result (list nat) :=
  if Nat.eqb (length ids) s then Ok ids else
  match ids with
  | [x] => Ok (repeat x s)
  | _ => if Nat.eqb s 1 then Ok ids else Err ValueError
  end.

(** [_get_start_after_appliance], lines 1916-1940.  np.where returns a tuple with one
    array, so the loop runs once, with the numbers of all following appliances.  The
    result has the stopped appliance and the appliance that follows it. *)
Definition followers (follows : list string) : list nat := where_true (map (fun s => negb (is_nan s)) follows).
Definition follow_candidates (follows types : list string) (stopped : list (nat * nat)) :
    result (list ((nat * nat) * nat)) :=
  let ids := followers follows in
  bind (mapM (vget follows) ids) (fun wanted =>
  bind (mapM (fun k : nat * nat => vget types (snd k)) stopped) (fun ended =>
  bind (same_strings wanted ended) (fun mask =>
  bind (times_ones ids (count_true mask)) (fun apps =>
  if negb (Nat.eqb (length mask) (length stopped)) then Err IndexError else
  let hh := compress mask stopped in
  if negb (Nat.eqb (length hh) (length apps)) then Err IndexError else Ok (combine hh apps))))).

Definition start_of (c : (nat * nat) * nat) : nat * nat := (fst (fst c), snd c).

(** Lines 1794-1798, with the rest of [_get_start_after_appliance] (1941-1956). *)
Definition follow_step (d : pdraws) (stopped : list (nat * nat)) (st : probsim) : result probsim :=
  match p_follows st with
  | None => Ok st
  | Some follows =>
      bind (follow_candidates follows (map ap_type (s_apps (p_base st))) stopped) (fun cands =>
      let st1 := look st in
      bind (sampled (fun c : (nat * nat) * nat => d_follow d (fst (fst c)) (snd (fst c)))
                    (fun c => one_time_prob st1 (usage_read st1) (start_of c)) cands) (fun chosen =>
      bind (switch_on (p_base st1) (w_follow d) (map start_of chosen)) (fun s => Ok (with_base st1 s))))
  end.

(** Lines 1815-1821 and [_get_start_after_activity] (1890-1909). *)
Definition after_step (d : pdraws) (act : string) (stops : list bool) (st : probsim) : result probsim :=
  match p_after st with
  | None => Ok st
  | Some after =>
      let st1 := look st in
      bind (sampled (fun k : nat * nat => d_after d act (fst k) (snd k)) (one_time_prob st1 (usage_read st1))
                    (cross stops (map (String.eqb act) after))) (fun chosen =>
      bind (switch_on (p_base st1) (w_after d act) chosen) (fun s => Ok (with_base st1 s)))
  end.

(** Lines 1823-1843. *)
Definition activity_step (d : pdraws) (act : string) (occurs : list bool) (st : probsim) : result probsim :=
  let st1 := look st in
  bind (sampled (fun k : nat * nat => d_act d act (fst k) (snd k)) (activity_start_prob st1 (usage_read st1))
                (cross occurs (map (String.eqb act) (p_related st)))) (fun chosen =>
  bind (switch_on (p_base st1) (w_act d act) chosen) (fun s => Ok (with_base st1 s))).

(** One turn of the loop of [step], lines 1800-1843.  Count arrays whose length is not
    the number of households are rejected. *)
Definition prob_turn (d : pdraws) (st : probsim) (item : string * list Z) : result probsim :=
  let '(act, now) := item in
  let mask := map (String.eqb act) (p_related st) in
  if negb (existsb (fun b => b) mask) then Ok st else
  match dget String.eqb (p_prev st) act with
  | None => Err KeyError
  | Some before =>
      let n := length (s_own (p_base st)) in
      if negb (Nat.eqb (length before) n && Nat.eqb (length now) n) then Err ValueError else
      let stops := map2 (fun p c => negb (Z.eqb p c) && Z.eqb c 0) before now in
      bind (prob_switch_off (p_base st) (cross stops (map2 andb mask (map ap_off (s_apps (p_base st)))))) (fun s =>
      bind (after_step d act stops (with_base st s)) (fun st1 =>
      activity_step d act (map (Z.ltb 0) now) st1))
  end.

(** [step], lines 1764-1847.  [super().step()] clears the cache; its
    [update_iteration_variables] does nothing here (lines 1849-1853). *)
Definition prob_step (st : probsim) (d : pdraws) (acts : list (string * list Z)) : result probsim :=
  let stopped := where2 (ended_mask (p_base st)) in
  bind (follow_step d stopped (with_base st (update_iteration_variables (p_base st)))) (fun st1 =>
  bind (fold_result (prob_turn d) acts st1) (fun st2 =>
  Ok (ProbSim (p_base st2) (p_related st2) (p_after st2) (p_follows st2) (p_probs st2) acts None))).

(** ** Probabilities of the appliances *)

(** What the data loader says about a subgroup: 'n_residents' (None without such a
    key), the targets of the appliances found by [get_target_from_dict]
    (Appliance_Model.v), [load_activity_probabilities] and
    [load_daily_activity_starts]. *)
Record group_data : Type := GroupData {
  g_residents : option Q;
  g_targets : result (list Q);
  g_probs : list (string * list Q);
  g_starts : list (string * list Q)
}.

(** [np.mean]; not a number for an empty array. *)
Definition q_mean (l : list Q) : option Q :=
  match l with [] => None | _ => Some (qsum l / inject_Z (Z.of_nat (length l)))%Q end.

(** [np.dot(pdf, np.arange(len(pdf)))]. *)
Definition mean_index (pdf : list Q) : Q :=
  qsum (map2 (fun i p => p * inject_Z (Z.of_nat i))%Q (seq 0 (length pdf)) pdf).

(** [probs\[mask_hh\[:, np.newaxis\] & mask_app\[np.newaxis, :\]\] = ...]: the same
    value in all households of the subgroup. *)
Definition set_probs (hh apps : list bool) (values : list chance) (m : list (list chance)) : list (list chance) :=
  map2 (fun b row => if b : bool then map2 (fun (bv : bool * chance) p => if fst bv then snd bv else p) (combine apps values) row else row) hh m.

(** Possible switch on steps in a year, lines 1686-1689. *)
Definition steps_of_year (step : Q) : Q := ((36525 # 100) * 24 * 60 * 60 / step)%Q.

(** Lines 1681-1704 for one appliance. *)
Definition activity_chance (step : Q) (act_prob : list Q) (duration target : Q) : chance :=
  match q_mean act_prob with
  | None => Nan
  | Some m =>
      let possible := (steps_of_year step * m - duration * target)%Q in
      Fin (target / (if Qltb possible 1 then 1 else possible))
  end.

(** Lines 1711-1716. *)
Definition starts_of_year (pdf : list Q) (residents : Q) : Q := ((36525 # 100) * mean_index pdf * residents)%Q.

(** The body of the loop of lines 1681-1725. *)
Definition activity_probs_turn (step : Q) (apps : list app) (related after : list string) (targets : list Q) (residents : Q)
    (starts : list (string * list Q)) (hh : list bool) (m : list (list chance)) (item : string * list Q) : result (list (list chance)) :=
  let '(act, prob) := item in
  let m1 := set_probs hh (map (String.eqb act) related) (map2 (fun a t => activity_chance step prob (ap_duration a) t) apps targets) m in
  match dget String.eqb starts act with
  | None => Err KeyError
  | Some pdf =>
      Ok (set_probs hh (map (String.eqb act) after) (map (fun t => chance_div t (starts_of_year pdf residents)) targets) m1)
  end.

(** Lines 1727-1748: an appliance whose previous type is the type of some appliance. *)
Definition type_total (types : list string) (targets : list Q) (t : string) : Q :=
  qsum (map2 (fun t' x => if String.eqb t' t then x else 0%Q) types targets).
Definition follow_probs (apps : list app) (follows : list string) (targets : list Q) (hh : list bool) (m : list (list chance)) :
    list (list chance) :=
  let types := map ap_type apps in
  set_probs hh (map (fun t => str_in t types) follows)
            (map2 (fun t x => chance_div x (type_total types targets t)) follows targets) m.

(** One turn of the loop over the subgroups, lines 1645-1748. *)
Definition group_turn (step : Q) (apps : list app) (related after follows : list string) (hh_types : list nat)
    (m : list (list chance)) (g : nat * group_data) : result (list (list chance)) :=
  let '(i, data) := g in
  let residents := match g_residents data with None => (23 # 10)%Q | Some n => n end in
  let hh := map (Nat.eqb i) hh_types in
  bind (g_targets data) (fun targets =>
  bind (fold_result (activity_probs_turn step apps related after targets residents (g_starts data) hh) (g_probs data) m) (fun m1 =>
  Ok (follow_probs apps follows targets hh m1))).

(** [sample_switch_on_probs], lines 1616-1750; both columns are needed. *)
Definition sample_switch_on_probs (step : Q) (apps : list app) (related : list string) (after follows : option (list string))
    (hh_types : list nat) (groups : list group_data) : result (list (list chance)) :=
  match after, follows with
  | Some af, Some fo =>
      fold_result (group_turn step apps related af fo hh_types) (combine (seq 0 (length groups)) groups)
                  (map (fun _ => map (fun _ => Fin 0) apps) hh_types)
  | _, _ => Err KeyError
  end.

(** [__init__] (lines 1543-1572) and [initialize_starting_state] (1752-1762) for the
    appliances kept, without initialization steps.  [_initialize_real_loads] reads the
    usage when no appliance is on, and nothing clears the cache. *)
Definition make_prob (step : Q) (apps : list app) (related : list string) (after follows : option (list string))
    (hh_types : list nat) (groups : list group_data)
    (own : list (list bool)) (algo : profiles_algo) (switched full : result real_loads) (pick1 pick2 start : nat -> nat -> nat)
    (wait : nat -> nat -> Z) (acts : list (string * list Z)) : result probsim :=
  bind (sample_switch_on_probs step apps related after follows hh_types groups) (fun probs =>
  bind (make_appliances apps related own algo switched full pick1 pick2 start wait) (fun s =>
  Ok (ProbSim s related after follows probs acts (Some (map (map (fun _ => false)) own))))).

(** [_remove_non_compatible_appliances], lines 1589-1614: the mask of the appliances
    that are kept, and what is left in 'probabilistic' of the dictionary given. *)
Definition prob_compatible (related : list string) (probabilistic : option (list bool)) (keys : list string) :
    list bool * list bool :=
  let p := match probabilistic with None => map (fun _ => true) related | Some p => p end in
  let flipped := map negb p in
  (compatible_mask related (Some flipped) keys, flipped).
