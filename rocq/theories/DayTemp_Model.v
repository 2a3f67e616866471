(** * Model of the temperatures of a day
    (CrestClimateSimulator._step_day, demod/simulators/weather_simulators.py 445-559).

    Exact rationals stand for floats; a missing value stands for nan.  The deviation
    [dtd] of lines 476-487, a logarithm and a random number, is an argument. *)

From Coq Require Import List ZArith QArith Bool Arith.
From Verif Require Import Prelude.
Import ListNotations.
Local Open Scope Q_scope.

(** [np.nanmax] and [np.nanargmax] (lines 472-473): the largest value and its first
    position; nothing when all are nan, where nanargmax raises. *)
Fixpoint nan_argmax (l : list (option Q)) : option (Q * nat) :=
  match l with
  | [] => None
  | None :: t => match nan_argmax t with Some (y, i) => Some (y, S i) | None => None end
  | Some x :: t => match nan_argmax t with Some (y, i) => if Qle_bool y x then Some (x, 0%nat) else Some (y, S i) | None => Some (x, 0%nat) end
  end.

(** Elementwise with the position. *)
Fixpoint map_pos {A B : Type} (f : nat -> A -> B) (i : nat) (l : list A) : list B :=
  match l with [] => [] | x :: t => f i x :: map_pos f (S i) t end.

Definition mean (l : list Q) : Q := qsum l / inject_Z (Z.of_nat (length l)).

(** The values of [l] where the mask holds. *)
Definition masked {A : Type} (mask : list bool) (l : list A) : list A := map snd (filter fst (combine mask l)).

(** Lines 448-469: ratios of the cumulated irradiances, nan at night. *)
Definition ratios (solar : Q) (irr : list Q) : list (option Q) :=
  let daylight := map (Qltb 0) irr in
  let c2 := cumsum irr in
  let c1 := cumsum (map (fun b : bool => if b then solar else 0) daylight) in
  map2 (fun (b : bool) r => if b then Some r else None) daylight (map2 Qdiv c2 c1).

(** Lines 490-518: the temperatures of daylight, 0 elsewhere. *)
Definition daylight_temps (tmin tmax kx : Q) (ki : nat) (c3 : list (option Q)) : list Q :=
  let before := (tmax - tmin) / kx in
  let after := before * (17 # 10) in
  map_pos (fun i o => match o with
                      | None => 0
                      | Some k => if (i <=? ki)%nat then tmin + before * k else tmax - after * (kx - k)
                      end) 0%nat c3.

(** Lines 521-556: the temperatures of the night, written around the daylight. *)
Definition night_temps (irr clear c4 : list Q) (sunrise sunset : nat) : list (option Q) :=
  let n := length irr in
  let dark := map (fun x => Qeq_bool x 0) irr in
  let di := length (masked dark irr) in
  let middle := map Some (firstn (sunset - sunrise) (skipn sunrise c4)) in
  match di with
  | O => map (fun _ => None) (firstn sunrise irr) ++ middle ++ map (fun _ => None) (skipn sunset irr)
  | _ =>
      let rate := (nth sunset c4 0 - nth sunrise c4 0) / inject_Z (Z.of_nat di) in
      let overnight := mean (masked dark clear) in
      let cool c := rate - (25 # 1000) * (overnight - c) in
      (* index -1 is the last *)
      let evening := nth (if (sunset =? 0)%nat then n - 1 else sunset - 1) c4 0 in
      let late := map (fun x => evening - x) (cumsum (map cool (skipn sunset clear))) in
      let early := map (fun x => last late 0 - x) (cumsum (map cool (firstn sunrise clear))) in
      map Some early ++ middle ++ map Some late
  end.

(** [_step_day]; [td] is Td_arma and [solar] cSolarConstant. *)
Definition step_day (td dtd solar : Q) (irr clear : list Q) : result (list (option Q)) :=
  let daylight := map (Qltb 0) irr in
  let c3 := ratios solar irr in
  match nan_argmax c3, first_true daylight, first_true (rev daylight) with
  | Some (kx, ki), Some sunrise, Some r =>
      (* the boolean index of line 537 *)
      if negb (length clear =? length irr)%nat then Err IndexError
      else
        let c4 := daylight_temps (td - (1 # 2) * dtd) (td + (1 # 2) * dtd) kx ki c3 in
        Ok (night_temps irr clear c4 sunrise (length irr - 1 - r)%nat)
  | _, _, _ => Err ValueError
  end.
