(** * Specification side for the thermostat set-points. *)

From Coq Require Import String List ZArith QArith Bool.
From Verif Require Import Prelude SpecBase Setpoint_Model.
Import ListNotations.

Open Scope Q_scope.

(** What is told to one household in a step: occupancy, active occupancy, and
    the two draws. *)
Record event := Event { e_occ : nat; e_act : nat; e_comfort : bool; e_raise : nat }.

(** The history of a single household. *)
Fixpoint house_run (time inc : Z) (l : list event) (h : shouse) : shouse :=
  match l with
  | [] => h
  | e :: t => house_run (time + inc) inc t (update_house (time + inc) (e_occ e) (e_act e) (e_comfort e) (e_raise e) h)
  end.

(** Documented mean and deviation of the patterns. *)
Inductive documented : string -> Q -> Q -> Prop :=
| doc_cool : documented "Cool Conservers" 17 (3 # 2)
| doc_steady : documented "Steady and Savvy" (37 # 2) 1
| doc_hot : documented "Hot and Cold Fluctuators" 20 2
| doc_sizzlers : documented "On-Demand Sizzlers" 23 2
| doc_onoff : documented "On-off Switchers" 20 (1 # 2)
| doc_toasty : documented "Toasty Cruisers" 21 1.

Definition has_label (h : shouse) (s : string) : Prop := exists p, at_ patterns (s_pat h) p /\ pa_label p = s.

Definition fluctuating (s : string) : Prop := s = "Cool Conservers"%string \/ s = "Hot and Cold Fluctuators"%string \/ s = "On-Demand Sizzlers"%string.
Definition scheduled (s : string) : Prop := s = "Steady and Savvy"%string \/ s = "Toasty Cruisers"%string.

(** randint(0, 2*dev + 1). *)
Definition draw_ok (dev : Q) (e : event) : Prop := inject_Z (Z.of_nat (e_raise e)) < 2 * dev + 1.

(** Minutes since midnight. *)
Definition minutes_of_day (t : Z) : Z := ((t / 60000000) mod 1440)%Z.
Definition on_grid (t : Z) : Prop := (minutes_of_day t mod 10 = 0)%Z.
Definition clock (h m : Z) : Z := (60 * h + m)%Z.

(** Times of the day on the grid of ten minutes. *)
Definition time_ok (h m : Z) : Prop := (0 <= h < 24 /\ 0 <= m < 60 /\ m mod 10 = 0)%Z.
Definition daily_ok (d : daily) : Prop :=
  time_ok (wake_h d) (wake_m d) /\ time_ok (leave_h d) (leave_m d) /\ time_ok (back_h d) (back_m d) /\ time_ok (bed_h d) (bed_m d).

(** The schedule: what is asked for at a time of the day, in deviations from the
    mean. Of several events at once the later in the list leave, back, bed,
    wake decides. *)
Inductive asks (d : daily) (k : Z) : Q -> Prop :=
| asks_wake : clock (wake_h d) (wake_m d) = k -> asks d k 1
| asks_bed : clock (wake_h d) (wake_m d) <> k -> clock (bed_h d) (bed_m d) = k -> asks d k 0
| asks_back : clock (wake_h d) (wake_m d) <> k -> clock (bed_h d) (bed_m d) <> k -> clock (back_h d) (back_m d) = k -> asks d k 1
| asks_leave : clock (wake_h d) (wake_m d) <> k -> clock (bed_h d) (bed_m d) <> k -> clock (back_h d) (back_m d) <> k ->
    changes d = true -> clock (leave_h d) (leave_m d) = k -> asks d k (-1).

Definition quiet (d : daily) (k : Z) : Prop :=
  clock (wake_h d) (wake_m d) <> k /\ clock (bed_h d) (bed_m d) <> k /\ clock (back_h d) (back_m d) <> k /\
  (changes d = true -> clock (leave_h d) (leave_m d) <> k).

(** Time of the day after [n] steps of ten minutes. *)
Definition clock_after (time : Z) (n : nat) : Z := minutes_of_day (time + Z.of_nat n * 600000000).

(** Nobody is active in an empty household. *)
Definition consistent (e : event) : Prop := e_occ e = 0%nat -> e_act e = 0%nat.
