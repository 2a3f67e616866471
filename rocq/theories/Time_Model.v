(** * Model of time-aware simulators and their callbacks
    (demod/simulators/base_simulators.py:679-984).

    A datetime is a number of microseconds since 0001-01-01T00:00 (the Python type
    has microsecond resolution); a timedelta is a number of microseconds.  Time
    zones and the overflow past year 9999 are not represented. *)

From Coq Require Import List ZArith Bool.
From Verif Require Import Prelude.
Import ListNotations.

Set Implicit Arguments.

Local Open Scope Z_scope.

Definition us_per_hour : Z := 3600000000.
Definition us_per_day : Z := 86400000000.

(** ** The calendar used by datetime.datetime (proleptic Gregorian). *)

Record date : Set := mkDate { year : Z; month : Z; day : Z }.

Definition is_leap (y : Z) : bool :=
  (y mod 4 =? 0) && (negb (y mod 100 =? 0) || (y mod 400 =? 0)).

Definition days_in_month (y m : Z) : Z :=
  if m =? 2 then (if is_leap y then 29 else 28)
  else if (m =? 4) || (m =? 6) || (m =? 9) || (m =? 11) then 30 else 31.

Definition next_date (d : date) : date :=
  if day d <? days_in_month (year d) (month d) then mkDate (year d) (month d) (day d + 1)
  else if month d <? 12 then mkDate (year d) (month d + 1) 1
  else mkDate (year d + 1) 1 1.

(** The date [n] days after 0001-01-01. *)
Definition date_of (n : Z) : date := N.iter (Z.to_N n) next_date (mkDate 1 1 1).

(** [datetime.date()], [datetime.day], [datetime.time()] and [datetime.hour]. *)
Definition date_at (t : Z) : date := date_of (t / us_per_day).
Definition time_of_day (t : Z) : Z := t mod us_per_day.
Definition hour_at (t : Z) : Z := time_of_day t / us_per_hour.
(** [datetime.weekday()]: Monday is 0; 0001-01-01 is a Monday. *)
Definition weekday_at (t : Z) : Z := (t / us_per_day) mod 7.

(** ** TimeAwareSimulator *)

Section Time.
  Variable U : Type.

  (** current_time, step_size and the rest of the simulator. *)
  Record tsim : Type := mkT { now : Z; step_size : Z; ticks : Z; user : U }.

  (** TimeAwareSimulator.step, lines 794-802, preceded by the code [body] of the
      class; the base step increments current_time_step. *)
  Definition tstep (body : U -> result U) (s : tsim) : result tsim :=
    bind (body (user s)) (fun u => Ok (mkT (now s + step_size s) (step_size s) (ticks s + 1) u)).

  Inductive init_time := AtTime (t : Z) | AtDatetime (t : Z) | AtNone | AtOther.

  Fixpoint iterate (n : nat) (step : tsim -> result tsim) (s : tsim) : result tsim :=
    match n with
    | O => Ok s
    | S n => bind (step s) (iterate n step)
    end.

  (** initialization_datetime, lines 750-777. *)
  Definition init_datetime (i : init_time) (current : Z) : result Z :=
    match i with
    | AtTime t =>
        let d := current / us_per_day * us_per_day + t in
        Ok (if d >? current then d - us_per_day else d)
    | AtDatetime d => if d >? current then Err ValueError else Ok d
    | AtNone => Ok current
    | AtOther => Err NotImplementedError
    end.

  (** initialize_starting_state, lines 721-792, with the base initialization
      486-517 (counter reset to 0, then that many steps; the logger is part of
      another model).  [int(timedelta / step_size)] is exact here whereas Python
      goes through a float.  A negative number of steps is a ValueError. *)
  Definition t_initialize (i : init_time) (step : tsim -> result tsim) (s : tsim) : result tsim :=
    bind (init_datetime i (now s)) (fun d =>
    let delta := now s - d in
    if step_size s =? 0 then Err ZeroDivisionError
    else
      let n := Z.quot delta (step_size s) in
      let remainder := delta mod step_size s in
      if n <? 0 then Err ValueError
      else iterate (Z.to_nat n) step (mkT (d + remainder) (step_size s) 0 (user s))).

  (** ** Callbacks, lines 868-984; the functions at 987-1015, kept for old code, do the
      same as the last four. *)

  Inductive callback :=
  | BeforeRefresh | AfterRefresh | BeforeNextDay | AfterNextDay | Before4am | After4am.

  Definition call_back (on : U -> result U) (s : tsim) : result tsim :=
    bind (on (user s)) (fun u => Ok (mkT (now s) (step_size s) (ticks s) u)).

  (** The decorated step methods; [refresh] is [data.refresh_time], [on] the on_...
      method, [step] the decorated method. *)
  Definition decorated (k : callback) (refresh : Z) (on : U -> result U)
      (step : tsim -> result tsim) (s : tsim) : result tsim :=
    match k with
    | BeforeRefresh =>
        bind (if time_of_day (now s) =? refresh then call_back on s else Ok s) step
    | AfterRefresh =>
        bind (step s) (fun s' =>
        if time_of_day (now s) =? refresh then call_back on s' else Ok s')
    | BeforeNextDay =>
        let next := now s + step_size s in
        bind (if day (date_at next) >? day (date_at (now s)) then call_back on s else Ok s) step
    | AfterNextDay =>
        bind (step s) (fun s' =>
        if negb (day (date_at (now s')) =? day (date_at (now s))) then call_back on s' else Ok s')
    | Before4am =>
        let next := now s + step_size s in
        bind (if (hour_at next =? 4) && negb (hour_at (now s) =? 4) then call_back on s else Ok s) step
    | After4am =>
        bind (step s) (fun s' =>
        if (hour_at (now s') =? 4) && negb (hour_at (now s) =? 4) then call_back on s' else Ok s')
    end.
End Time.
Arguments AtTime t : assert.
