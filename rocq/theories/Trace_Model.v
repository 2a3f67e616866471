(** * The tracebase profiles (datasets/tracebase/loader.py).

    Files are inputs: lists of (second of the day, load) in the order of the
    file.  Downloading and the csv reader are not modelled. *)

From Coq Require Import String List ZArith QArith Bool Arith.
From Verif Require Import Prelude.
Import ListNotations.

Definition readings := list (Z * Q).

(** [np.interp(x, seconds, load)] for sorted seconds: the value on the segment
    that starts at the last reading not after [x]; constant outside. *)
Fixpoint segment (x x0 : Z) (y0 : Q) (rest : readings) : Q :=
  match rest with
  | [] => y0
  | (x1, y1) :: t =>
      if (x <? x1)%Z
      then if (x <? x0)%Z then y0
           else (y1 - y0) / inject_Z (x1 - x0) * inject_Z (x - x0) + y0
      else segment x x1 y1 t
  end.

(** [np.arange(a, b, 1)]. *)
Definition arange (a b : Z) : list Z := map (fun k => (a + Z.of_nat k)%Z) (seq 0 (Z.to_nat (b - a))).

Fixpoint last_second (s : Z) (r : readings) : Z := match r with [] => s | (x, _) :: t => last_second x t end.

(** tracebase/loader.py lines 178-193: the load of each second from the first
    reading to the last one, which is excluded. *)
Definition per_second (r : readings) : result (list Q) :=
  match r with
  | [] => Err IndexError
  | (s0, y0) :: t => Ok (map (fun x => segment x s0 y0 t) (arange s0 (last_second s0 t)))
  end.

(** tracebase/loader.py lines 194-203; [step] is the step size in microseconds.
    [int] truncates. *)
Definition resample (step : Z) (load : list Q) : result (list Q) :=
  let sec := Z.quot step 1000000 in
  if (sec =? 1)%Z then Ok load
  else if (sec =? 0)%Z then Err ZeroDivisionError
  else
    let n_pad := (sec - Z.modulo (Z.of_nat (length load)) sec)%Z in
    if (n_pad <? 0)%Z then Err ValueError
    else
      let padded := load ++ repeat 0%Q (Z.to_nat n_pad) in
      let w := Z.to_nat sec in
      Ok (map (fun k => qsum (firstn w (skipn (k * w) padded)) / inject_Z sec)%Q (seq 0 (Nat.div (length padded) w))).

(** tracebase/loader.py lines 171-203 [_parse_single_profile] (type 'full'). *)
Definition parse_profile (step : Z) (r : readings) : result (list Q) := bind (per_second r) (resample step).

(** Dictionaries of dictionaries of profiles. *)
Definition profiles := list (string * list (string * list Q)).

(** tracebase/loader.py lines 157-167: the files of a directory. *)
Fixpoint add_files (step : Z) (m : list (string * list Q)) (files : list (string * readings)) : result (list (string * list Q)) :=
  match files with
  | [] => Ok m
  | (f, r) :: t => bind (parse_profile step r) (fun p => add_files step (dset String.eqb m f p) t)
  end.

(** tracebase/loader.py lines 144-169: the directories, in the order listed;
    [table] is [traceback_type_to_demod]. *)
Fixpoint full_profiles (table : list (string * string)) (step : Z) (d : profiles) (dirs : list (string * list (string * readings))) : result profiles :=
  match dirs with
  | [] => Ok d
  | (type_name, files) :: t =>
      match dget String.eqb table type_name with
      | None => full_profiles table step d t
      | Some name =>
          let m := match dget String.eqb d name with Some m => m | None => [] end in
          bind (add_files step m files) (fun m1 => full_profiles table step (dset String.eqb d name m1) t)
      end
  end.

(** Positions of the values above 6 W, lines 243-245. *)
Fixpoint above (i : nat) (l : list Q) : list nat :=
  match l with [] => [] | x :: t => if Qltb 6 x then i :: above (S i) t else above (S i) t end.
Definition crop (load : list Q) : result (list Q) :=
  match above 0 load with
  | [] => Err IndexError
  | a :: rest => let b := List.last rest a in Ok (firstn (b + 1 - a) (skipn a load))
  end.

(** tracebase/loader.py lines 237-250; [chosen] is
    [load_profiles_satisfying]. *)
Fixpoint on_files (chosen : list string) (d : profiles) (type : string) (loads : list (string * list Q)) : result profiles :=
  match loads with
  | [] => Ok d
  | (f, load) :: t =>
      if existsb (String.eqb f) chosen then
        bind (crop load) (fun p =>
        let m := match dget String.eqb d type with Some m => m | None => [] end in
        on_files chosen (dset String.eqb d type (dset String.eqb m f p)) type t)
      else on_files chosen d type t
  end.
Fixpoint on_profiles (chosen : list string) (d : profiles) (all : profiles) : result profiles :=
  match all with
  | [] => Ok d
  | (type, loads) :: t => bind (on_files chosen d type loads) (fun d1 => on_profiles chosen d1 t)
  end.

(** tracebase/loader.py lines 134-141 and 169: [_parse_real_profiles_dict]. *)
Definition parse_profiles (table : list (string * string)) (chosen : list string) (step : Z)
    (dirs : list (string * list (string * readings))) (profiles_type : string) : result profiles :=
  if String.eqb profiles_type "switchedON" then
    bind (full_profiles table step [] dirs) (fun all => on_profiles chosen [] all)
  else if String.eqb profiles_type "full" then full_profiles table step [] dirs
  else Err NotImplementedError.
