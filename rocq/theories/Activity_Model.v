(** * Model of the activity simulators (demod/simulators/activity_simulators.py,
      demod/simulators/sparse_simulators.py and the occupancy model of
      demod/simulators/crest_simulators.py).

    States are indices, probabilities exact rationals.  Each random call is given
    the stream [u : nat -> Q] of the uniform numbers it returns. *)

From Coq Require Import String List ZArith QArith Bool Arith.
From Verif Require Import Prelude Sampling_Model Parse_Model Sparse_Model.
Import ListNotations.

Set Implicit Arguments.

(** [l[i]] for a list of indices. *)
Definition get_at {A} (l : list A) (i : nat) : result A :=
  match nth_error l i with Some x => Ok x | None => Err IndexError end.

(** monte_carlo_from_cdf with one number of the stream per row. *)
Definition mc_rows (rows : list (list Q)) (u : nat -> Q) : result (list nat) :=
  mc_from_cdf rows (map u (seq 0 (length rows))).

(** ** itertools.cycle over the first axis of an array. *)
Record cyc (A : Type) : Type := mkCyc { cyc_items : list A; cyc_pos : nat }.

Definition cyc_new {A} (l : list A) : cyc A := mkCyc l 0.

Definition cyc_next {A} (c : cyc A) : result (A * cyc A) :=
  match nth_error (cyc_items c) (cyc_pos c) with
  | None => Err StopIteration
  | Some x =>
      let next := S (cyc_pos c) in
      Ok (x, mkCyc (cyc_items c) (if (next =? length (cyc_items c))%nat then 0%nat else next))
  end.

(** ** MarkovChain1rstOrder, activity_simulators.py:76-283 *)
Section Chain.
  Variables (L : Type) (cmp : L -> L -> comparison).

  (** The object after __init__. *)
  Record chain0 : Type := mkChain0 {
    c0_n : nat;
    c0_states : nat;
    c0_tpms : list (list (list Q));
    c0_labels : list L
  }.

  (** An initialized object. *)
  Record chain : Type := mkChain {
    c_n : nat;
    c_nstates : nat;
    c_labels : list L;
    c_states : list nat;
    c_iter : cyc (list (list Q));
    c_ticks : Z
  }.

  Definition square (n : nat) (m : list (list Q)) : bool :=
    (length m =? n)%nat && forallb (fun row => length row =? n)%nat m.

  (** __init__, lines 92-145: the base class needs at least one household; the
      shape tests; the default labels [np.arange(n_states)] are passed explicitly. *)
  Definition chain_init (n_hh n_st : nat) (tpms : list (list (list Q))) (labels : list L) : result chain0 :=
    if (n_hh =? 0)%nat then Err ValueError
    else if negb (forallb (square n_st) tpms) then Err ValueError
    else if negb (length labels =? n_st)%nat then Err ValueError
    else Ok (mkChain0 n_hh n_st tpms labels).

  Definition check_cdfs (checkcdf : bool) (rows : list (list Q)) : result bool :=
    if checkcdf then check_valid_cdf eps_cdf rows else Ok true.

  (** The cumulative tables and the iterator of _set_tpm, lines 211-222. *)
  Definition tpm_iter (tpms : list (list (list Q))) (checkcdf : bool) : result (cyc (list (list Q))) :=
    let cdf := map (map cumsum) tpms in
    bind (check_cdfs checkcdf (concat cdf)) (fun _ =>
    bind (cyc_next (cyc_new cdf)) (fun r => Ok (snd r))).

  (** initialize_starting_state, lines 147-193.  A positive start_time_step steps
      the object before _cdf_iterator exists (line 167). *)
  Definition chain_start (c : chain0) (pdf : list Q) (start_step : nat) (checkcdf : bool) (u : nat -> Q)
      : result chain :=
    if negb (start_step =? 0)%nat then Err AttributeError
    else if negb (length pdf =? c0_states c)%nat then Err AssertionError
    else
      let cdfs := repeat (cumsum pdf) (c0_n c) in
      bind (check_cdfs checkcdf cdfs) (fun _ =>
      bind (mc_rows cdfs u) (fun st =>
      if negb (forallb (fun s => s <? c0_states c)%nat st) then Err AssertionError
      else
        bind (tpm_iter (c0_tpms c) checkcdf) (fun it =>
        Ok (mkChain (c0_n c) (c0_states c) (c0_labels c) st it 0)))).

  (** step, lines 267-277. *)
  Definition chain_step (c : chain) (u : nat -> Q) : result chain :=
    bind (cyc_next (c_iter c)) (fun r =>
    bind (mapM (get_at (fst r)) (c_states c)) (fun rows =>
    bind (mc_rows rows u) (fun st =>
    Ok (mkChain (c_n c) (c_nstates c) (c_labels c) st (snd r) (c_ticks c + 1))))).

  Fixpoint chain_run (hist : list (nat -> Q)) (c : chain) : result chain :=
    match hist with
    | [] => Ok c
    | u :: t => bind (chain_step c u) (chain_run t)
    end.

  (** The positions of the old labels in the new ones, lines 243-256 (also
      sparse_simulators.py:560-575): -1 unless there is exactly one. *)
  Definition position_in (new : list L) (lab : L) : Z :=
    match where_true (map (is_eq cmp lab) new) with
    | [k] => Z.of_nat k
    | _ => (-1)%Z
    end.

  (** _assign_new_labels, lines 227-265, with the value given to lost labels. *)
  Definition relabel (lost : Z) (old : list L) (states : list nat) (new : list L) : result (list Z) :=
    bind (mapM (get_at old) states) (fun labs =>
    let u := uniq cmp labs in
    let pos := map (position_in new) u in
    let pos' := map (fun p => if (p =? -1)%Z then lost else p) pos in
    mapM (fun lab => get_at pos' (index_in cmp lab u)) labs).

  Definition assign_new_labels (c : chain) (new : list L) : result chain :=
    bind (relabel 0 (c_labels c) (c_states c) new) (fun st =>
    Ok (mkChain (c_n c) (c_nstates c) new (map Z.to_nat st) (c_iter c) (c_ticks c))).

  (** _set_tpm, lines 195-225. *)
  Definition set_tpm (c : chain) (tpms : list (list (list Q))) (checkcdf : bool) (new_labels : option (list L))
      : result chain :=
    bind (tpm_iter tpms checkcdf) (fun it =>
    let c' := mkChain (c_n c) (c_nstates c) (c_labels c) (c_states c) it (c_ticks c) in
    match new_labels with
    | None => Ok c'
    | Some new => assign_new_labels c' new
    end).

  (** get_n_doing_state and get_n_doing_activity, lines 279-285. *)
  Definition chain_doing_state (c : chain) (s : nat) : list bool := map (fun x => x =? s)%nat (c_states c).

  Definition chain_doing_activity (c : chain) (a : L) : result (list bool) :=
    match where_true (map (is_eq cmp a) (c_labels c)) with
    | k :: _ => Ok (chain_doing_state c k)
    | [] => Err ValueError
    end.

  (** ** SemiMarkovSimulator, activity_simulators.py:288-476 *)

  (** duration_pdfs: three dimensions (time, new state, duration) or four (time, old
      state, new state, duration). *)
  Inductive dur_pdfs :=
  | Pdf3 (l : list (list (list Q)))
  | Pdf4 (l : list (list (list (list Q)))).

  Inductive dur_iter :=
  | Dur3 (it : cyc (list (list Q)))
  | Dur4 (it : cyc (list (list (list Q)))).

  Record semi : Type := mkSemi {
    s_chain : chain;
    s_left : list Z;
    s_dur : dur_iter
  }.

  (** _set_duration_pdfs, lines 402-437 (checkcdf is always its default, True). *)
  Definition dur_iter_of (n_st : nat) (d : dur_pdfs) : result dur_iter :=
    match d with
    | Pdf3 l =>
        if negb (forallb (fun m => length m =? n_st)%nat l) then Err ValueError else
        let cdf := map (map cumsum) l in
        bind (check_cdfs true (concat cdf)) (fun _ =>
        bind (cyc_next (cyc_new cdf)) (fun r => Ok (Dur3 (snd r))))
    | Pdf4 l =>
        if negb (forallb (fun m => length m =? n_st)%nat l) then Err ValueError else
        let cdf := map (map (map cumsum)) l in
        bind (check_cdfs true (concat (concat cdf))) (fun _ =>
        bind (cyc_next (cyc_new cdf)) (fun r => Ok (Dur4 (snd r))))
    end.

  (** initialize_starting_state, lines 361-400. *)
  Definition semi_start (c : chain0) (durs : dur_pdfs) (pdf : list Q) (start_durs : list (list Q))
      (start_step : nat) (checkcdf : bool) (u v : nat -> Q) : result semi :=
    bind (chain_start c pdf start_step checkcdf u) (fun ch =>
    bind (mapM (get_at start_durs) (c_states ch)) (fun rows =>
    bind (mc_rows (map cumsum rows) v) (fun t =>
    bind (dur_iter_of (c_nstates ch) durs) (fun it =>
    Ok (mkSemi ch (map (fun x => Z.of_nat x - 1)%Z t) it))))).

  (** The duration tables of the subjects that change state, lines 462-474. *)
  Definition dur_rows (d : dur_iter) (prev new : list nat) : result (list (list Q) * dur_iter) :=
    match d with
    | Dur3 it =>
        bind (cyc_next it) (fun r =>
        bind (mapM (get_at (fst r)) new) (fun rows => Ok (rows, Dur3 (snd r))))
    | Dur4 it =>
        bind (cyc_next it) (fun r =>
        bind (mapM (fun pn => bind (get_at (fst r) (fst pn)) (fun m => get_at m (snd pn))) (combine prev new))
             (fun rows => Ok (rows, Dur4 (snd r))))
    end.

  (** step, lines 439-476: [u] for the states, [v] for the durations. *)
  Definition semi_step (s : semi) (uv : (nat -> Q) * (nat -> Q)) : result semi :=
    let c := s_chain s in
    let mask := map (fun t => t <? 1)%Z (s_left s) in
    let prev := compress mask (c_states c) in
    bind (cyc_next (c_iter c)) (fun r =>
    bind (mapM (get_at (fst r)) prev) (fun rows =>
    bind (mc_rows rows (fst uv)) (fun new =>
    bind (dur_rows (s_dur s) prev new) (fun dr =>
    bind (mc_rows (fst dr) (snd uv)) (fun ts =>
    Ok (mkSemi (mkChain (c_n c) (c_nstates c) (c_labels c) (mask_assign mask new (c_states c)) (snd r) (c_ticks c + 1))
               (map (fun t => t - 1)%Z (mask_assign mask (map Z.of_nat ts) (s_left s)))
               (snd dr))))))).

  Fixpoint semi_run (hist : list ((nat -> Q) * (nat -> Q))) (s : semi) : result semi :=
    match hist with
    | [] => Ok s
    | uv :: t => bind (semi_step s uv) (semi_run t)
    end.
End Chain.

(** ** SubgroupsIndividualsActivitySimulator, activity_simulators.py:479-905 *)
Section Individuals.
  Variables (K : Type) (keqb : K -> K -> bool).

  (** list.index, line 659. *)
  Fixpoint index_of_key (k : K) (l : list K) : result nat :=
    match l with
    | [] => Err ValueError
    | x :: t => if keqb k x then Ok 0%nat else bind (index_of_key k t) (fun i => Ok (S i))
    end.

  (** Body of the loop over the persons of a subgroup of [n_hh] households, lines
      657-664: [hh_of_person[i].append(past + hh) for hh in range(n_hh)] and
      [persons_counted[i] += n_hh]. *)
  Fixpoint add_persons (uniques : list K) (past n_hh : nat) (persons : list K)
      (acc : list (list nat) * list nat) : result (list (list nat) * list nat) :=
    match persons with
    | [] => Ok acc
    | p :: t =>
        bind (index_of_key p uniques) (fun i =>
        bind (upd i (fun l => Ok (l ++ seq past n_hh)) (fst acc)) (fun hh =>
        bind (upd i (fun c => Ok (c + n_hh)%nat) (snd acc)) (fun cnt =>
        add_persons uniques past n_hh t (hh, cnt))))
    end.

  (** The loop over the subgroups, lines 655-666. *)
  Fixpoint add_subgroups (uniques : list K) (past : nat) (groups : list (list K * nat))
      (acc : list (list nat) * list nat) : result (list (list nat) * list nat) :=
    match groups with
    | [] => Ok acc
    | (persons, n_hh) :: t =>
        bind (add_persons uniques past n_hh persons acc) (add_subgroups uniques (past + n_hh) t)
    end.

  (** _parse_subgroups_input, lines 627-670.  [uniques] are the distinct persons in
      the order of np.unique (the order of the dictionaries is an input). *)
  Definition parse_subgroups (uniques : list K) (persons : list (list K)) (n_hh : list nat)
      : result (list (list nat) * list nat) :=
    add_subgroups uniques 0 (combine persons n_hh)
      (map (fun _ => []) uniques, map (fun _ => 0%nat) uniques).

  (** n_residents, lines 639-643. *)
  Definition expand_residents (residents : list Z) (n_hh : list nat) : list Z :=
    concat (map2 (fun r n => repeat r n) residents n_hh).
End Individuals.

(** [out[u] = c], lines 809-811 and 827-829; the boolean index must have the length
    of hh_of_persons. *)
Definition count_in_hh (n_hh : nat) (hh_of_persons : list nat) (mask : list bool) : result (list nat) :=
  if negb (length mask =? length hh_of_persons)%nat then Err IndexError
  else
    (fix go (kvs : list (nat * nat)) (out : list nat) : result (list nat) :=
       match kvs with
       | [] => Ok out
       | (k, c) :: t => bind (set1 k c out) (go t)
       end) (uniq_counts Nat.compare (compress mask hh_of_persons)) (repeat 0%nat n_hh).

(** get_n_doing_activity, lines 818-831. *)
Definition individuals_doing {L} (cmp : L -> L -> comparison) (n_hh : nat) (hh_of_persons : list nat)
    (subs : list (chain L)) (a : L) : result (list nat) :=
  bind (mapM (fun c => chain_doing_activity cmp c a) subs) (fun ms =>
  count_in_hh n_hh hh_of_persons (concat ms)).

(** get_occupancy and get_active_occupancy, lines 886-905, from the numbers away and
    sleeping. *)
Definition ind_occupancy (residents : list Z) (away : list nat) : list Z :=
  map2 (fun r a => r - Z.of_nat a)%Z residents away.

Definition ind_active (residents : list Z) (away sleeping : list nat) : list Z :=
  map2 (fun o s => o - Z.of_nat s)%Z (ind_occupancy residents away) sleeping.

(** ** SparseStatesSimulator, sparse_simulators.py:33-303 *)

Local Open Scope Z_scope.

(** MAX_PEOPLE_HOUSEHOLD, lines 28-30. *)
Definition max_people : Z := 7.

(** The arithmetic of line 184-186. *)
Definition label_digit (a : nat) (label : Z) : Z :=
  label mod (max_people ^ (Z.of_nat a + 1)) / (max_people ^ Z.of_nat a).

Record spsim : Type := mkSp {
  sp_tpm : tpm;
  sp_labels : list Z;
  sp_states : list Z;
  sp_activities : list string;
  sp_ticks : Z;
  sp_time : Z
}.

(** The argument of get_n_doing_state: an int, a str or something else (a list of
    those maps the function). *)
Inductive state_arg := ByIndex (a : nat) | ByName (s : string) | ByOther.

Definition labels_now (labels states : list Z) : result (list Z) :=
  mapM (fun s => get_at labels (Z.to_nat s)) states.

(** get_n_doing_state, lines 163-216. *)
Definition sp_doing (s : spsim) (arg : state_arg) : result (list Z) :=
  let by_index a := bind (labels_now (sp_labels s) (sp_states s)) (fun ls => Ok (map (label_digit a) ls)) in
  match arg with
  | ByIndex a => by_index a
  | ByName name =>
      match where_true (map (String.eqb name) (sp_activities s)) with
      | [] => Err ValueError
      | [a] => by_index a
      | _ => Err TypeError
      end
  | ByOther => Err TypeError
  end.

(** _getstart_time_step_from_datetime, lines 153-161. *)
Definition start_step_of (hour minute : Z) : Z :=
  minute / 10 + 6 * (if 4 <=? hour then hour - 4 else hour + 20).

(** A time of day in microseconds split into datetime.hour and datetime.minute. *)
Definition us_minute : Z := 60000000.
Definition hour_of (tod : Z) : Z := tod / (60 * us_minute).
Definition minute_of (tod : Z) : Z := tod / us_minute mod 60.

(** step, lines 287-303, for a time-aware object; [new_day] is update_new_day and
    [fuel] bounds the recursion of sparse_monte_carlo.  super().step() increments the
    counter first, so the matrix used is that of the old counter. *)
Definition sp_step (aware : bool) (increment : Z) (new_day : spsim -> result spsim) (fuel : nat)
    (s : spsim) (u : nat -> Q) : result spsim :=
  bind (if aware
        then let s' := mkSp (sp_tpm s) (sp_labels s) (sp_states s) (sp_activities s) (sp_ticks s) (sp_time s + increment) in
             if sp_ticks s' mod 144 =? 0 then new_day s' else Ok s'
        else Ok s) (fun s =>
  bind (sparse_mc fuel (sp_tpm s) (sp_ticks s + 1 - 1) (sp_states s) (map u (seq 0 (length (sp_states s))))) (fun st =>
  Ok (mkSp (sp_tpm s) (sp_labels s) st (sp_activities s) (sp_ticks s + 1) (sp_time s)))).

Fixpoint sp_run (aware : bool) (increment : Z) (new_day : spsim -> result spsim) (fuel : nat)
    (hist : list (nat -> Q)) (s : spsim) : result spsim :=
  match hist with
  | [] => Ok s
  | u :: t => bind (sp_step aware increment new_day fuel s u) (sp_run aware increment new_day fuel t)
  end.

(** The end of initialize_starting_state, lines 268-279, for a time-aware object
    created with [start] as its time (line 120): update_new_day, then the counter is
    reset and [start_step] steps are made, one per element of [hist]. *)
Definition sp_start (start : Z) (new_day : spsim -> result spsim) (fuel : nat)
    (hist : list (nat -> Q)) (s : spsim) : result spsim :=
  let tod := start mod 86400000000 in
  let steps := start_step_of (hour_of tod) (minute_of tod) in
  if negb (Z.of_nat (length hist) =? steps) then Err ValueError
  else
    bind (new_day (mkSp (sp_tpm s) (sp_labels s) (sp_states s) (sp_activities s) (sp_ticks s) start)) (fun s =>
    sp_run true (10 * us_minute) new_day fuel hist
      (mkSp (sp_tpm s) (sp_labels s) (sp_states s) (sp_activities s) 0 (sp_time s))).

(** The relabelling of SparseTransitStatesSimulator.update_new_day, lines 548-588:
    the loaded table [p] and labels [new] replace the current ones; a lost label is
    given [labels[0]], the value of the first label (line 578). *)
Definition sp_new_day (p : tpm) (new : list Z) (s : spsim) : result spsim :=
  match new with
  | [] => Err IndexError
  | first :: _ =>
      bind (relabel Z.compare first (sp_labels s) (map Z.to_nat (sp_states s)) new) (fun st =>
      let p' := mkTpm (t_times p) (t_from p) (t_to p) (t_values p) (n_states p) (n_times p) (Some 0) in
      if negb (Z.of_nat (length new) =? n_states p) then Err ValueError
      else Ok (mkSp p' new st (sp_activities s) (sp_ticks s) (sp_time s)))
  end.

(** ** SparseTransitStatesSimulator getters, sparse_simulators.py:444-505; [n] is
    self.n_residents. *)

Definition transit_occupancy (n : Z) (s : spsim) : result (list Z) :=
  bind (sp_doing s (ByName "HWH")) (fun hwh =>
  bind (sp_doing s (ByName "HOH")) (fun hoh =>
  Ok (map (fun away => n - away) (map2 Z.add hwh hoh)))).

Definition transit_active (n : Z) (s : spsim) : result (list Z) :=
  bind (transit_occupancy n s) (fun at_home =>
  bind (sp_doing s (ByName "active")) (fun active =>
  Ok (map2 Z.min at_home active))).

Definition transit_thermal (n : Z) (s : spsim) : result (list Z) :=
  bind (transit_active n s) (fun active =>
  bind (sp_doing s (ByName "HOH")) (fun hoh =>
  bind (sp_doing s (ByName "HWH")) (fun hwh =>
  let dormants := map2 Z.sub (map2 Z.sub (map (fun h => n - h) hoh) hwh) active in
  Ok (map2 Z.add (map (Z.mul 84) dormants) (map (Z.mul 147) active))))).

(** Code of a person in get_data_sparse9states, datasets/GermanTOU/parser.py:1892-1909:
    [out] is 0 in the house, 1 for HWH and 2 for HOH. *)
Definition person_code (active : bool) (out : Z) : Z :=
  if out =? 0 then (if active then 1 else 0) else max_people ^ (1 + out - 1).

(** The household state: the sum over its persons (group_in_household_activity,
    parser.py:1706). *)
Definition household_code (persons : list (bool * Z)) : Z :=
  fold_right (fun p n => person_code (fst p) (snd p) + n) 0 persons.

(** Activity names built at parser.py:1888 and 1901. *)
Definition transit_names : list string := ["active"; "HWH"; "HOH"]%string.

(** ** CrestOccupancySimulator getters, crest_simulators.py:154-188 *)

Definition crest_occupancy (label : Z) : Z := label / 10.
Definition crest_active (label : Z) : Z := Z.min (label / 10) (label mod 10).
Definition crest_thermal (label : Z) : Z :=
  84 * Z.max (label / 10 - label mod 10) 0 + 147 * crest_active label.

Definition crest_get (f : Z -> Z) (c : chain Z) : result (list Z) :=
  bind (mapM (get_at (c_labels c)) (c_states c)) (fun ls => Ok (map f ls)).
