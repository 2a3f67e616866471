(** * Model of the climate simulators
    (demod/simulators/weather_simulators.py 279-810).

    Times are microseconds as in [Time_Model]; time zones and loggers are not
    represented. *)

From Coq Require Import List ZArith QArith Bool Arith.
From Verif Require Import Prelude Time_Model Loader_Model.
Import ListNotations.
Local Open Scope Z_scope.

Definition us_per_minute : Z := 60000000.
Definition minutes_per_day : nat := N.to_nat 1440.

(** ** CrestIrradianceSimulator (lines 45-276) *)

Section Irradiance.
(** The value stored at line 270-274 by the step made when the clock shows the given
    time, and the clearness reached by that step.  A simulator makes at most one step
    at each time, so that these functions also stand for the random numbers. *)
Variable radiation clearness_after : Z -> Q.

Record sun : Type := mkSun { s_irradiance : Q; s_clearness : Q }.

(** [step] (lines 205-276): everything is computed before the clock is moved by the
    last line.  The callback after the next day (lines 196-203) only recomputes a
    parameter of [radiation]. *)
Definition irradiance_step (s : tsim sun) : result (tsim sun) :=
  decorated AfterNextDay 0 (fun u => Ok u) (fun s => tstep (fun _ => Ok (mkSun (radiation (now s)) (clearness_after (now s)))) s) s.

(** The constructor and [initialize_starting_state] (lines 122-150): steps from
    midnight, then an irradiance of 0. *)
Definition make_irradiance (initial_clearness : Q) (start step : Z) : result (tsim sun) :=
  bind (t_initialize (AtTime 0) irradiance_step (mkT start step 0 (mkSun 0 initial_clearness))) (fun s =>
  Ok (mkT (now s) (step_size s) (ticks s) (mkSun 0 (s_clearness (user s))))).
End Irradiance.

(** ** CrestClimateSimulator *)

Section Crest.
Variable radiation clearness_after : Z -> Q.
(** [_step_day] in the given call of [on_before_next_day], with the parameters of
    that day (lines 408-440) and its random numbers. *)
Variable temps : nat -> list Q -> list Q -> result (list Q).

Record climate : Type := mkC { isim : tsim sun; irr_iter : list Q; temp_iter : list Q; irradiance : Q; temperature : Q; refills : nat }.

(** The loop of lines 379-382. *)
Fixpoint simulate (n : nat) (s : tsim sun) : result (list (Q * Q) * tsim sun) :=
  match n with
  | O => Ok ([], s)
  | S n =>
      bind (irradiance_step radiation clearness_after s) (fun s1 =>
      bind (simulate n s1) (fun r => Ok ((s_irradiance (user s), s_clearness (user s)) :: fst r, snd r)))
  end.

(** [on_before_next_day] (lines 364-393). *)
Definition on_before_next_day (c : climate) : result climate :=
  bind (simulate minutes_per_day (isim c)) (fun r =>
  let i := map fst (fst r) in
  bind (temps (refills c) i (map snd (fst r))) (fun ts =>
  Ok (mkC (snd r) i ts (irradiance c) (temperature c) (S (refills c))))).

(** Two calls of next (lines 404-405, 357-358). *)
Definition pop (c : climate) : result climate :=
  match irr_iter c, temp_iter c with
  | i :: is, t :: ts => Ok (mkC (isim c) is ts i t (refills c))
  | _, _ => Err StopIteration
  end.

(** [step] with its decorator (lines 402-406). *)
Definition climate_step : tsim climate -> result (tsim climate) := decorated BeforeNextDay 0 on_before_next_day (tstep pop).

(** The constructor (lines 327-362).  The irradiance simulator receives the same
    start and step size.  The attributes irradiance and temperature do not exist
    before line 357; any value stands for them. *)
Definition make_climate (initial_clearness : Q) (start step : Z) : result (tsim climate) :=
  bind (make_irradiance radiation clearness_after initial_clearness start step) (fun s0 =>
  bind (on_before_next_day (mkC s0 [] [] 0%Q 0%Q 0)) (fun c =>
  bind (pop c) (fun c => t_initialize (AtTime 0) climate_step (mkT start step 0 c)))).
End Crest.

(** ** RealClimate (lines 562-680) *)

Record real : Type := mkReal { r_rest : list (Q * Q); r_irradiance : Q; r_temperature : Q }.

(** Two calls of next (lines 663-664, 672-673). *)
Definition real_pop (r : real) : result real :=
  match r_rest r with (i, t) :: l => Ok (mkReal l i t) | [] => Err StopIteration end.

(** [step] (lines 669-674). *)
Definition real_step : tsim real -> result (tsim real) := tstep real_pop.

(** The constructor (lines 589-667); rows are (time, (irradiance, temperature)) and
    [step] is the step size of the data.  A missing temperature column is a KeyError
    in the code and is not represented. *)
Definition make_real (rows : list (Z * (Q * Q))) (start step : Z) : result (tsim real) :=
  bind (historical_slice rows start step) (fun rows =>
  match rows with
  | [] => Err IndexError
  | (t0, _) :: _ =>
      if t0 >? start then Err ValueError
      else bind (real_pop (mkReal (map snd rows) 0%Q 0%Q)) (fun r => t_initialize (AtDatetime t0) real_step (mkT start step 0 r))
  end).

(** ** RealInterpolatedClimate (lines 683-810) *)

Record interpolated : Type := mkInter { points : list (Z * Q); (** minutes since the first point, value *) first_minute : Z; last_time : Z }.

(** datetime64[m] *)
Definition minute_of (t : Z) : Z := t / us_per_minute.

(** [scipy.interpolate.interp1d] with kind 'linear' and the default bounds check. *)
Fixpoint segment (l : list (Z * Q)) (x : Z) : result Q :=
  match l with
  | (x0, y0) :: (((x1, y1) :: _) as rest) =>
      if x <=? x1 then Ok (((y1 - y0) / inject_Z (x1 - x0)) * inject_Z (x - x0) + y0)%Q else segment rest x
  | _ => Err ValueError
  end.

Definition interp1d (l : list (Z * Q)) (x : Z) : result Q :=
  match l with
  | [] => Err ValueError
  | (x0, y0) :: rest => if x <? x0 then Err ValueError else match rest with [] => if x =? x0 then Ok y0 else Err ValueError | _ => segment l x end
  end.

(** [step] (lines 783-791). *)
Definition interpolated_step (s : tsim interpolated) : result (tsim interpolated) :=
  bind (tstep (fun u => Ok u) s) (fun s' => if now s' >? last_time (user s') then Err ValueError else Ok s').

(** The constructor (lines 708-781).  The step size given to the simulator is
    independent of the data's.  The keyword of line 781 is misspelled, so that no
    initialization time is received. *)
Definition make_interpolated (rows : list (Z * Q)) (start data_step step : Z) : result (tsim interpolated) :=
  bind (historical_slice rows start data_step) (fun rows =>
  match rows, rev rows with
  | (t0, _) :: _, (tn, _) :: _ =>
      let m0 := minute_of t0 in
      if m0 * us_per_minute >? start then Err ValueError
      else t_initialize AtNone interpolated_step (mkT start step 0 (mkInter (map (fun r => (minute_of (fst r) - m0, snd r)) rows) m0 (minute_of tn * us_per_minute)))
  | _, _ => Err IndexError
  end).

(** The getters (lines 793-812). *)
Definition interpolated_get (s : tsim interpolated) : result Q := interp1d (points (user s)) (minute_of (now s) - first_minute (user s)).
