(** * Vocabulary for the statements about the older heating simulators. *)

From Coq Require Import List ZArith QArith Bool Arith.
From Verif Require Import Prelude SpecBase Light_Spec Heat_Model Heat_Spec Boiler_Model.
Import ListNotations.

Open Scope Q_scope.

(** The minutes of a simulation that starts at [t0]: one update per minute, [u k i] being the
    draw of dwelling i at minute k. *)
Fixpoint minutes (c : ctl) (t0 : Z) (u : nat -> nat -> Q) (k : nat) : result ctl :=
  match k with
  | O => Ok c
  | S j => bind (minutes c t0 u j) (fun c' => update_controls c' (t0 + 60000000 * Z.of_nat j) (u j))
  end.

(** The clock shows a full or a half hour, possibly with seconds. *)
Definition on_half_hour (t : Z) : Prop := exists k s, t = (1800000000 * k + s)%Z /\ (0 <= s < 60000000)%Z.

(** The timer of a dwelling with delay [d] (in minutes after the half hour) over the half hours
    of a simulation: in the j-th one it moves by the j-th table of the cycle, with the number
    drawn at its minute. *)
Inductive timer_path (tables : list (list (list Q))) (u : nat -> Q) (d : nat) (start : nat) : nat -> nat -> Prop :=
| path_start : timer_path tables u d start 0 start
| path_next : forall j a b table row, timer_path tables u d start j a ->
    at_ tables (j mod length tables) table -> at_ table a row -> picks row (u (30 * j + d)%nat) b ->
    timer_path tables u d start (S j) b.

(** Tables of two states. *)
Definition two_states (tables : list (list (list Q))) : Prop :=
  tables <> [] /\ forall table, In table tables -> length table = 2%nat /\ forall row, In row table -> length row = 2%nat.
Definition proper (h : dwelling) : Prop := (w_timer h < 2)%nat /\ (-15 <= w_delay h < 15)%Z.

(** What does not change in a dwelling. *)
Definition same_settings (h h' : dwelling) : Prop :=
  w_delay h' = w_delay h /\ w_home h' = w_home h /\ w_water h' = w_water h /\ w_emit h' = w_emit h /\
  w_combi h' = w_combi h /\ w_states h' = w_states h.

(** What a dwelling is asked in one minute: temperatures of cylinder, room and emitters and the
    hot water drawn. *)
Record ask := Ask { a_cyl : Q; a_room : Q; a_em : Q; a_demand : Q }.
Definition answer (h : dwelling) (a : ask) : dwelling * controls := calculate_controls h (a_cyl a) (a_room a) (a_em a) (a_demand a).
(** Any number of questions and of updates in between. *)
Inductive event := Asked (a : ask) | Updated (table : list (list Q)) (m : Z) (u : Q).
Fixpoint life (h : dwelling) (l : list event) : result dwelling :=
  match l with
  | [] => Ok h
  | Asked a :: t => life (fst (answer h a)) t
  | Updated table m u :: t => bind (update_house table m u h) (fun h' => life h' t)
  end.

(** A thermostat with hysteresis. *)
Definition band_rule (on : bool) (t set band : Q) (on' : bool) : Prop :=
  on' = true <-> (on = true /\ t < set + band) \/ (on = false /\ t <= set - band).
