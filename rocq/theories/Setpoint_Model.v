(** * Model of VariableThermostatTemperatureSimulator
      (demod/simulators/heating_simulators.py:26-370).

    The updates are elementwise over the households; the model steps one
    household at a time. Draws are arguments: for each household and step one
    boolean (np.random.binomial, line 266) and one integer (np.random.randint,
    line 275). The arrays of line 59-73 are a table of records. *)

From Coq Require Import String List ZArith QArith Bool.
From Verif Require Import Prelude Sampling_Model Time_Model.
Import ListNotations.

Open Scope Q_scope.

(** LOW_T, heating_simulators.py:57. *)
Definition LOW_T : Q := 16.

(** load_patterns, heating_simulators.py:59-82. *)
Record pattern := Pattern { pa_label : string; pa_fixed : bool; pa_mean : Q; pa_dev : Q; pa_prob : Q }.

Definition patterns : list pattern :=
  [Pattern "Cool Conservers" false 17 (3 # 2) (1 # 10);
   Pattern "Steady and Savvy" true (37 # 2) 1 (1 # 20);
   Pattern "Hot and Cold Fluctuators" false 20 2 (1 # 10);
   Pattern "On-Demand Sizzlers" false 23 2 (1 # 10);
   Pattern "On-off Switchers" false 20 (1 # 2) 0;
   Pattern "Toasty Cruisers" true 21 1 (1 # 20)]%string.

(** pattern_labels.index(label). *)
Fixpoint label_index (l : list pattern) (s : string) : option nat :=
  match l with
  | [] => None
  | p :: t => if String.eqb (pa_label p) s then Some 0%nat else option_map S (label_index t s)
  end.

(** attribute_patterns, heating_simulators.py:151-188. The positional or keyword
    argument is a string or some other object; the draws are uniform for
    'living lab' and integers below the number of patterns for 'random'. *)
Inductive method := MString (s : string) | MObject.

Definition living_lab : list Q := [6 # 100; 24 # 100; 17 # 100; 12 # 100; 28 # 100; 13 # 100].

Definition attribute_patterns (m : method) (n : nat) (ints : list nat) (draws : list Q) : result (list nat) :=
  match m with
  | MString s =>
      if String.eqb s "random" then Ok ints
      else if String.eqb s "living lab" then mc_from_1d_pdf living_lab draws
      else match label_index patterns s with
           | Some i => Ok (repeat i n)
           | None => Err ValueError
           end
  | MObject => Err ValueError
  end.

(** The extra arguments of __init__, heating_simulators.py:190-216: passed on
    both to Simulator.__init__, which takes [logger], and to
    attribute_patterns, which takes [pattern_attribution_method]. *)
Inductive extra :=
| NoExtra
| PosNone | PosLogger | PosString (s : string)
| KwLogger | KwMethod (s : string).

(** Simulator.__init__ with these arguments, base_simulators.py:448-484. *)
Definition base_accepts (e : extra) : result unit :=
  match e with
  | NoExtra | PosNone | PosLogger | KwLogger => Ok tt
  | PosString _ | KwMethod _ => Err TypeError
  end.

(** Binding of the arguments of attribute_patterns. *)
Definition method_of (e : extra) : result method :=
  match e with
  | NoExtra => Ok (MString "living lab")
  | PosNone | PosLogger => Ok MObject
  | PosString s | KwMethod s => Ok (MString s)
  | KwLogger => Err TypeError
  end.

Definition construct (e : extra) (n : nat) (ints : list nat) (draws : list Q) : result (list nat) :=
  bind (base_accepts e) (fun _ => bind (method_of e) (fun m => attribute_patterns m n ints draws)).

(** initialize_fixed_patterns, heating_simulators.py:84-149: for one household,
    from the eight sampled indices. *)
Record daily := Daily {
  wake_h : Z; wake_m : Z; changes : bool; leave_h : Z; leave_m : Z;
  back_h : Z; back_m : Z; bed_h : Z; bed_m : Z }.

Definition fixed_patterns (i_wake_h i_wake_m i_change i_stay i_away i_bed_h i_bed_m : nat) : daily :=
  let z := Z.of_nat in
  let wh := (6 + z i_wake_h)%Z in
  let wm := (10 * z i_wake_m)%Z in
  let stay := (30 + 10 * z i_stay)%Z in
  let lh := ((wh + (wm + stay) / 60) mod 24)%Z in
  let lm := ((wm + stay) mod 60)%Z in
  let away := (240 + 10 * z i_away)%Z in
  Daily wh wm (Nat.ltb 0 i_change) lh lm
    ((lh + (lm + away) / 60) mod 24) ((lm + away) mod 60)
    ((20 + z i_bed_h) mod 24) (10 * z i_bed_m).

(** The draws of lines 90-147. *)
Definition sample_daily (u : list Q) : result daily :=
  match u with
  | [u1; u2; u3; u4; u5; u6; u7] =>
      bind (mc_one (cumsum (repeat (1 # 4) 4)) u1) (fun a =>
      bind (mc_one (cumsum ((1 # 2) :: repeat (1 # 10) 5)) u2) (fun b =>
      bind (mc_one (cumsum (repeat (1 # 2) 2)) u3) (fun c =>
      bind (mc_one (cumsum (repeat (1 # 20) 20)) u4) (fun d =>
      bind (mc_one (cumsum (repeat (1 # 20) 20)) u5) (fun e =>
      bind (mc_one (cumsum (repeat (1 # 5) 5)) u6) (fun f =>
      bind (mc_one (cumsum ((1 # 2) :: repeat (1 # 10) 5)) u7) (fun g =>
      Ok (fixed_patterns a b c d e f g))))))))
  | _ => Err ValueError
  end.

(** One household: its pattern, daily times, set-point and last occupancy. *)
Record shouse := SHouse { s_pat : nat; s_daily : daily; s_T : Q; s_occ : nat; s_act : nat }.

(** initialize_starting_state, heating_simulators.py:218-225. *)
Definition s_init (i : nat) (d : daily) (occ act : nat) : result shouse :=
  match nth_error patterns i with
  | Some p => Ok (SHouse i d (pa_mean p) occ act)
  | None => Err IndexError
  end.

(** update_fluctuators, heating_simulators.py:237-298, for a household of this
    pattern. *)
Definition fluctuate (p : pattern) (occ act : nat) (comfort : bool) (r : nat) (h : shouse) : Q :=
  let leaving := (occ =? 0)%nat && (0 <? s_occ h)%nat in
  let arrival := (0 <? occ)%nat && (s_occ h =? 0)%nat in
  let go_bed := (act =? 0)%nat && (0 <? s_act h)%nat && negb arrival && negb leaving in
  let wake_up := (0 <? act)%nat && (s_act h =? 0)%nat && negb arrival && negb leaving in
  let t := s_T h in
  let t := if leaving then LOW_T else t in
  let t := if arrival then pa_mean p + pa_dev p else t in
  let t := if go_bed then pa_mean p else t in
  let t := if wake_up then pa_mean p + pa_dev p else t in
  if (0 <? act)%nat && comfort then pa_mean p + inject_Z (Z.of_nat r) / 2 else t.

(** update_onoff_switchers, heating_simulators.py:300-319. *)
Definition on_off (p : pattern) (occ : nat) : Q := if (0 <? occ)%nat then pa_mean p else LOW_T.

(** datetime.minute. *)
Definition minute_at (t : Z) : Z := (time_of_day t / 60000000) mod 60.

(** update_constant_patterns, heating_simulators.py:321-358. *)
Definition constant (p : pattern) (d : daily) (time : Z) (t : Q) : Q :=
  let now h m := (h =? hour_at time)%Z && (m =? minute_at time)%Z in
  let t := if changes d && now (leave_h d) (leave_m d) then pa_mean p - pa_dev p else t in
  let t := if now (back_h d) (back_m d) then pa_mean p + pa_dev p else t in
  let t := if now (bed_h d) (bed_m d) then pa_mean p else t in
  if now (wake_h d) (wake_m d) then pa_mean p + pa_dev p else t.

(** update_thermostat_temperatures, heating_simulators.py:360-376: the six
    updates, each on the households of its pattern. *)
Inductive rule := RFluctuate | ROnOff | RConstant.
Definition updates : list (rule * string) :=
  [(RFluctuate, "Cool Conservers"); (RFluctuate, "Hot and Cold Fluctuators"); (RFluctuate, "On-Demand Sizzlers");
   (ROnOff, "On-off Switchers"); (RConstant, "Steady and Savvy"); (RConstant, "Toasty Cruisers")]%string.

Definition apply_update (time : Z) (occ act : nat) (comfort : bool) (r : nat) (h : shouse) (u : rule * string) : shouse :=
  match label_index patterns (snd u), nth_error patterns (s_pat h) with
  | Some i, Some p =>
      if Nat.eqb (s_pat h) i then
        SHouse (s_pat h) (s_daily h)
          (match fst u with
           | RFluctuate => fluctuate p occ act comfort r h
           | ROnOff => on_off p occ
           | RConstant => constant p (s_daily h) time (s_T h)
           end) (s_occ h) (s_act h)
      else h
  | _, _ => h
  end.

Definition update_house (time : Z) (occ act : nat) (comfort : bool) (r : nat) (h : shouse) : shouse :=
  let h' := fold_left (apply_update time occ act comfort r) updates h in
  SHouse (s_pat h') (s_daily h') (s_T h') occ act.

(** step, heating_simulators.py:227-235, for all the households; arrays of
    another length cannot be indexed by the masks. *)
Record ssim := SSim { ss_time : Z; ss_houses : list shouse }.

Definition sp_step (occ act : list nat) (draws : list (bool * nat)) (inc : Z) (x : ssim) : result ssim :=
  let time := (ss_time x + inc)%Z in
  if Nat.eqb (length occ) (length (ss_houses x)) && Nat.eqb (length act) (length (ss_houses x))
  then Ok (SSim time (map (fun '(h, ((o, a), (b, r))) => update_house time o a b r h)
                          (combine (ss_houses x) (combine (combine occ act) draws))))
  else Err IndexError.

Definition ten_minutes : Z := 600000000.

(** get_thermostat_temperatures, heating_simulators.py:378-384. *)
Definition get_thermostat_temperatures (x : ssim) : list Q := map s_T (ss_houses x).
