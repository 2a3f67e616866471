(** * Model of the clearness of the sky in CrestIrradianceSimulator
    (demod/simulators/weather_simulators.py 68-170).

    [Weather_Model] takes the clearness of each step as given; here it is computed
    from the uniform number [u t] returned in the step made when the clock shows
    [t].  The irradiance is left out: it does not influence the clearness. *)

From Coq Require Import List ZArith QArith Bool Arith.
From Verif Require Import Prelude Sampling_Model Parse_Model Activity_Model Time_Model.
Import ListNotations.

(** _next_clearness, lines 152-159, with monte_carlo_from_1d_cdf for one sample; the
    state becomes an array of one element, which selects the same row. *)
Definition next_clearness (cdf : list (list Q)) (draw : Q) (state : nat) : result nat :=
  bind (get_at cdf state) (fun row => mc_one row draw).

(** step, lines 205-276: the callback recomputes a parameter of the irradiance. *)
Definition sky_step (cdf : list (list Q)) (u : Z -> Q) (s : tsim nat) : result (tsim nat) :=
  decorated AfterNextDay 0 (fun x => Ok x) (fun s => tstep (next_clearness cdf (u (now s))) s) s.

(** The index of the initial clearness, lines 132-137: the first one when the value
    is there several times, an IndexError when it is not there. *)
Definition clearness_index (values : list Q) (initial : Q) : result nat :=
  match where_true (map (fun v => Qeq_bool v initial) values) with
  | [] => Err IndexError
  | k :: _ => Ok k
  end.

(** The constructor, lines 93-120, and initialize_starting_state, lines 122-150; the
    test of the step size is in [Weather_Model]'s caller. *)
Definition make_sky (tpm : list (list Q)) (values : list Q) (initial : Q) (start step : Z) (u : Z -> Q)
    : result (tsim nat) :=
  let cdf := map cumsum tpm in
  bind (check_valid_cdf eps_cdf cdf) (fun _ =>
  bind (clearness_index values initial) (fun k =>
  t_initialize (AtTime 0) (sky_step cdf u) (mkT start step 0 k))).

(** get_current_clearness, lines 164-165. *)
Definition get_current_clearness (values : list Q) (s : tsim nat) : result Q := get_at values (user s).
