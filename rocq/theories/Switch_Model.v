(** * Model of the simulators whose tables follow the calendar:
      Crest4StatesModel (demod/simulators/crest_simulators.py:191-342) and
      SubgroupsIndividualsActivitySimulator (demod/simulators/activity_simulators.py:479-875)
      with sub-simulators of the class MarkovChain1rstOrder.

    Loggers, caches and the SemiMarkovSimulator variant are not represented.  The
    draws of a step are given by the counter of the simulator and the number of the
    sub-simulator. *)

From Coq Require Import String List ZArith QArith Bool Arith.
From Verif Require Import Prelude Sampling_Model Parse_Model Sparse_Model Activity_Model Time_Model Subgroup_Model.
Import ListNotations.

Set Implicit Arguments.

(** ** Lists of first-order chains, each with the key its tables are loaded for. *)
Section Subs.
  Variables (L G : Type) (cmp : L -> L -> comparison).

  (** What load_tpm returns: matrices, labels and starting pdf. *)
  Definition loaded : Type := (list (list (list Q)) * list L * list Q)%type.

  Record sub : Type := mkSub { b_key : G; b_chain : chain L }.

  (** Creation of one chain: crest_simulators.py:139-156 and
      activity_simulators.py:727-743; [size] gives n_states. *)
  Definition make_sub (load : G -> result loaded) (size : G -> list L -> nat) (u : nat -> Q) (g : G) (n : nat)
      : result sub :=
    bind (load g) (fun r =>
    let '(tpms, labels, pdf) := r in
    bind (chain_init n (size g labels) tpms labels) (fun c0 =>
    bind (chain_start c0 pdf 0 true u) (fun c => Ok (mkSub g c)))).

  (** The loops over the subgroups: crest_simulators.py:261-266 and
      activity_simulators.py:726-745. *)
  Fixpoint make_subs (load : G -> result loaded) (size : G -> list L -> nat) (u : nat -> nat -> Q) (i : nat)
      (l : list (G * nat)) : result (list sub) :=
    match l with
    | [] => Ok []
    | (g, n) :: t =>
        bind (make_sub load size (u i) g n) (fun b =>
        bind (make_subs load size u (S i) t) (fun bs => Ok (b :: bs)))
    end.

  (** The loop of MultiSimulator.step, base_simulators.py:598-610, without arguments. *)
  Fixpoint step_all (u : nat -> nat -> Q) (i : nat) (l : list sub) : result (list sub) :=
    match l with
    | [] => Ok []
    | b :: t =>
        bind (chain_step (b_chain b) (u i)) (fun c =>
        bind (step_all u (S i) t) (fun t' => Ok (mkSub (b_key b) c :: t')))
    end.

  (** New tables for one chain: crest_simulators.py:325-327 and
      activity_simulators.py:786-793. *)
  Definition new_tables (load : G -> result loaded) (b : sub) (g : G) : result sub :=
    bind (load g) (fun r =>
    let '(tpms, labels, _) := r in
    bind (set_tpm cmp (b_chain b) tpms true (Some labels)) (fun c => Ok (mkSub g c))).
End Subs.

(** Ten minutes. *)
Definition ten_minutes : Z := 600000000.

(** ** Crest4StatesModel *)

(** The attribute current_day_type: 'd' or 'e'. *)
Inductive day_type := TypeD | TypeE.

Definition day_type_eqb (a b : day_type) : bool :=
  match a, b with TypeD, TypeD | TypeE, TypeE => true | _, _ => false end.

(** Lines 260 and 313. *)
Definition day_type_at (t : Z) : day_type := if (isoweekday t <=? 5)%Z then TypeD else TypeE.

(** The entry 'weekday' of the subgroup in CrestOccupancySimulator, line 139. *)
Definition weekdays_of (k : day_type) : list Z :=
  match k with TypeD => [1; 2; 3; 4; 5] | TypeE => [6; 7] end%Z.

(** The dataset: the residents of the subgroups with their pdf
    (load_population_subgroups), load_tpm for {n_residents, weekday}, and
    refresh_time. *)
Record crest_data : Type := mkCrestData {
  cd_residents : list Z;
  cd_pdf : list Q;
  cd_load : Z -> list Z -> result (loaded Z);
  cd_refresh : Z
}.

Record crest_state : Type := mkCrest {
  cs_type : day_type;
  cs_subs : list (sub Z Z);
  cs_residents : list Z
}.

(** n_states, line 148. *)
Definition crest_size (r : Z) (_ : list Z) : nat := Z.to_nat ((r + 1) * (r + 1)).

(** on_after_refresh_time, lines 305-327. *)
Definition crest_refresh (d : crest_data) (s : tsim crest_state) : result (tsim crest_state) :=
  let k := day_type_at (now s) in
  if negb (day_type_eqb k (cs_type (user s))) then
    let days := if (isoweekday (now s) <=? 5)%Z then [1; 2; 3; 4; 5]%Z else [6; 7]%Z in
    bind (mapM (fun b => new_tables Z.compare (fun r => cd_load d r days) b (b_key b)) (cs_subs (user s))) (fun l =>
    Ok (mkT (now s) (step_size s) (ticks s) (mkCrest k l (cs_residents (user s)))))
  else Ok s.

(** step, lines 335-338, with the decorator of base_simulators.py:868-984: the
    callback follows a step that began at refresh_time. *)
Definition crest_step (d : crest_data) (u : Z -> nat -> nat -> Q) (s : tsim crest_state) : result (tsim crest_state) :=
  bind (tstep (fun x => bind (step_all (u (ticks s)) 0 (cs_subs x)) (fun l =>
                        Ok (mkCrest (cs_type x) l (cs_residents x)))) s) (fun s' =>
  if (time_of_day (now s) =? cd_refresh d)%Z then crest_refresh d s' else Ok s').

(** [labels[numbers > 0]] and [numbers[numbers > 0]], lines 256-257. *)
Definition sampled (residents : list Z) (numbers : list nat) : result (list (Z * nat)) :=
  if negb (length residents =? length numbers)%nat then Err IndexError
  else Ok (filter (fun p => (0 <? snd p)%nat) (combine residents numbers)).

(** __init__, lines 229-303.  [has_step] tells whether step_size is among the keyword
    arguments; [w] are the draws of the sampling, [v] those of the starting states. *)
Definition crest_make (n : nat) (d : crest_data) (start : Z) (algo : sampling_algo) (has_step : bool)
    (w : list Q) (v : nat -> nat -> Q) (u : Z -> nat -> nat -> Q) : result (tsim crest_state) :=
  bind (sample_population n (cd_pdf d) algo w) (fun numbers =>
  bind (sampled (cd_residents d) numbers) (fun groups =>
  let k := day_type_at start in
  bind (make_subs (fun r => cd_load d r (weekdays_of k)) crest_size v 0 groups) (fun l =>
  if has_step then Err ValueError
  else if (list_sum (map (fun b => c_n (b_chain b)) l) =? 0)%nat then Err ValueError
  else
    let residents := concat (map (fun p => repeat (fst p) (snd p)) groups) in
    t_initialize (AtTime (cd_refresh d)) (crest_step d u) (mkT start ten_minutes 0 (mkCrest k l residents))))).

(** get_states_labeled, lines 329-333, and the getters made by MultiSimulator. *)
Definition crest_labels (x : crest_state) : result (list Z) :=
  bind (mapM (fun b => mapM (get_at (c_labels (b_chain b))) (c_states (b_chain b))) (cs_subs x)) (fun ls =>
  Ok (concat ls)).

Definition crest_getter (f : Z -> Z) (x : crest_state) : result (list Z) :=
  bind (mapM (fun b => crest_get f (b_chain b)) (cs_subs x)) (fun ls => Ok (concat ls)).

(** ** SubgroupsIndividualsActivitySimulator *)

(** The dataset: load_tpm and refresh_time; the arguments use_week_ends_days,
    use_week_sat_sun, use_7days and use_quarters. *)
Record ind_data : Type := mkIndData {
  id_load : subgroup -> result (loaded string);
  id_refresh : Z;
  id_ends : bool;
  id_sat_sun : bool;
  id_7days : bool;
  id_quarters : bool
}.

(** time_aware, lines 589-591. *)
Definition id_aware (d : ind_data) : bool := id_ends d || id_7days d || id_quarters d || id_sat_sun d.

(** on_after_refresh_time, lines 865-874, with _update_subgroups_with_time,
    lines 700-710. *)
Definition ind_refresh (cmp : string -> string -> comparison) (d : ind_data) (s : tsim (list (sub string subgroup)))
    : result (tsim (list (sub string subgroup))) :=
  if id_aware d then
    bind (mapM (fun b => add_time (b_key b) (now s) (id_ends d) (id_sat_sun d) (id_7days d) (id_quarters d)) (user s))
      (fun keys =>
    bind (mapM (fun p => new_tables cmp (id_load d) (fst p) (snd p)) (combine (user s) keys)) (fun l =>
    Ok (mkT (now s) (step_size s) (ticks s) l)))
  else Ok s.

(** step, lines 859-863. *)
Definition ind_step (cmp : string -> string -> comparison) (d : ind_data) (u : Z -> nat -> nat -> Q)
    (s : tsim (list (sub string subgroup))) : result (tsim (list (sub string subgroup))) :=
  bind (tstep (step_all (u (ticks s)) 0) s) (fun s' =>
  if (time_of_day (now s) =? id_refresh d)%Z then ind_refresh cmp d s' else Ok s').

(** __init__, lines 579-632, from the distinct persons and their numbers
    (_parse_subgroups_input, see parse_subgroups).  [kw_step] is the keyword argument
    step_size. *)
Definition ind_make (cmp : string -> string -> comparison) (d : ind_data) (persons : list (subgroup * nat)) (start : Z)
    (kw_step : option Z) (v : nat -> nat -> Q) (u : Z -> nat -> nat -> Q)
    : result (tsim (list (sub string subgroup))) :=
  bind (make_subs (id_load d) (fun _ labels => length labels) v 0 persons) (fun l =>
  if (list_sum (map (fun b => c_n (b_chain b)) l) =? 0)%nat then Err ValueError
  else if match kw_step with Some z => negb (z =? ten_minutes)%Z | None => false end then Err ValueError
  else t_initialize (AtTime (id_refresh d)) (ind_step cmp d u) (mkT start ten_minutes 0 l)).
