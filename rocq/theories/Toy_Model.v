(** * The documented example simulators (demod/simulators/base_simulators.py:1018-1158).

    Counts are exact rational numbers together with the numpy type of their array.
    [n_households] and [max_residents] are integers; loggers belong to another model. *)

From Coq Require Import List ZArith QArith Bool.
From Verif Require Import Prelude Time_Model.
Import ListNotations.
Local Open Scope Q_scope.

Inductive dtype := DInt | DFloat.

(** What may be given as [arriving] or [leaving]: a number or an array. *)
Inductive amount := Scalar (d : dtype) (v : Q) | Array (d : dtype) (vs : list Q).
Definition dtype_of (a : amount) : dtype := match a with Scalar d _ => d | Array d _ => d end.

(** The attribute [occupants], and what has been printed. *)
Record toy := Toy { occ_type : dtype; occ : list Q; printed : list Q }.

(** [occupants += a] and [occupants -= a] in place: floats are not cast into an integer
    array, and the array cannot change its shape. *)
Definition in_place (op : Q -> Q -> Q) (u : toy) (a : amount) : result toy :=
  match occ_type u, dtype_of a with
  | DInt, DFloat => Err TypeError
  | _, _ =>
      let put l := Ok (Toy (occ_type u) l (printed u)) in
      match a with
      | Scalar _ v => put (map (fun x => op x v) (occ u))
      | Array _ vs =>
          if (length vs =? length (occ u))%nat then put (map2 op (occ u) vs)
          else match vs with
               | [v] => put (map (fun x => op x v) (occ u))
               | _ => Err ValueError
               end
      end
  end.

(** The first two lines of both step methods, 1069-1070 and 1144-1145.  The array stays
    as it is when one of them raises. *)
Definition move (u : toy) (arriving leaving : amount) : toy * option py_error :=
  match in_place Qplus u arriving with
  | Err e => (u, Some e)
  | Ok u1 => match in_place Qminus u1 leaving with
             | Err e => (u1, Some e)
             | Ok u2 => (u2, None)
             end
  end.

(** [np.random.randint(0, high, size=n)] with [n] positive; the drawn numbers are
    [draws h], between 0 and [high - 1]. *)
Definition randint (high : Z) (n : nat) (draws : nat -> Z) : result (list Q) :=
  if (high <=? 0)%Z then Err ValueError else Ok (map (fun h => inject_Z (draws h)) (seq 0 n)).

(** ** ExampleSimulator, lines 1018-1071 *)

Record esim := ESim { e_ticks : Z; e_user : toy }.

(** Construction, lines 1025-1062; the number of households is checked by the base
    class, lines 465-473. *)
Definition example_init (n max_residents : Z) (draws : nat -> Z) : result esim :=
  if (n <=? 0)%Z then Err ValueError
  else bind (randint max_residents (Z.to_nat n) draws) (fun l => Ok (ESim 0 (Toy DInt l []))).

(** step, lines 1066-1071, with the base step 521-533: the time step is counted when
    nothing was raised. *)
Definition example_step (s : esim) (i : amount * amount) : esim * option py_error :=
  match move (e_user s) (fst i) (snd i) with
  | (u, Some e) => (ESim (e_ticks s) u, Some e)
  | (u, None) => (ESim (e_ticks s + 1) u, None)
  end.

(** ** TimeAwareExampleSimulator, lines 1074-1158 *)

(** The same two lines, when nothing else is looked at after an exception. *)
Definition moved (i : amount * amount) (u : toy) : result toy :=
  match move u (fst i) (snd i) with
  | (_, Some e) => Err e
  | (u1, None) => Ok u1
  end.

(** on_before_next_day_4am, lines 1148-1158: the percentage of empty households. *)
Definition percentage (l : list Q) : Q :=
  inject_Z (Z.of_nat (length (filter (fun x => Qeq_bool x 0) l))) / inject_Z (Z.of_nat (length l)) * 100.
Definition print_empty (u : toy) : result toy := Ok (Toy (occ_type u) (occ u) (printed u ++ [percentage (occ u)])).

(** step, lines 1140-1146. *)
Definition aware_step (i : amount * amount) (s : tsim toy) : result (tsim toy) :=
  decorated Before4am 0 print_empty (tstep (moved i)) s.

(** The initialization algorithms, lines 1110-1138. *)
Inductive algo := Random | AllInsideAt4am | OtherAlgo.

(** Construction, lines 1081-1138.  Zeros arrive and leave during the initial steps. *)
Definition aware_init (n max_residents start step_size : Z) (draws : nat -> Z) (a : algo) : result (tsim toy) :=
  if (n <=? 0)%Z then Err ValueError
  else match a with
       | Random =>
           bind (randint max_residents (Z.to_nat n) draws) (fun l =>
           t_initialize (AtDatetime start) (fun _ => Err TypeError) (mkT start step_size 0 (Toy DInt l [])))
       | AllInsideAt4am =>
           let zeros := Array DFloat (repeat 0 (Z.to_nat n)) in
           t_initialize (AtTime (4 * us_per_hour)%Z) (aware_step (zeros, zeros))
             (mkT start step_size 0 (Toy DFloat (repeat (inject_Z max_residents * 1) (Z.to_nat n)) []))
       | OtherAlgo => Err NotImplementedError
       end.
