(** * Model of demod/utils/monte_carlo.py, demod/utils/distribution_functions.py
      and the helpers of demod/simulators/util.py. *)

From Coq Require Import List ZArith QArith Bool.
From Verif Require Import Prelude.
Import ListNotations.

Set Implicit Arguments.

(** ** demod/utils/monte_carlo.py *)

(** monte_carlo.py:39-43 for one draw [r]: [mask = cdf > r; argmax(mask)]. *)
Definition mc_one (cdf : list Q) (r : Q) : result nat :=
  argmax_bool (map (fun c => Qltb r c) cdf).

(** monte_carlo_from_1d_cdf, monte_carlo.py:26-43.  The uniform draws of line 40
    are the input [draws]; [n_samples] is their number. *)
Definition mc_from_1d_cdf (cdf : list Q) (draws : list Q) : result (list nat) :=
  match cdf with
  | [] => Err ValueError            (* argmax over an empty axis *)
  | _ => mapM (mc_one cdf) draws
  end.

(** monte_carlo_from_1d_pdf, monte_carlo.py:46-59. *)
Definition mc_from_1d_pdf (pdf : list Q) (draws : list Q) : result (list nat) :=
  mc_from_1d_cdf (cumsum pdf) draws.

(** monte_carlo_from_cdf, monte_carlo.py:62-80: one row and one draw per sample
    ([draws] is the array sampled at line 77, of the same length as [rows]). *)
Definition mc_from_cdf (rows : list (list Q)) (draws : list Q) : result (list nat) :=
  mapM (fun rd => mc_one (fst rd) (snd rd)) (combine rows draws).

(** monte_carlo_from_pdf, monte_carlo.py:83-97. *)
Definition mc_from_pdf (rows : list (list Q)) (draws : list Q) : result (list nat) :=
  mc_from_cdf (map cumsum rows) draws.

(** ** demod/utils/distribution_functions.py

    Inputs of any dimension are reshaped to a list of rows (lines 27-28, 59-60,
    89-90) and reshaped back at the end; the model works on the rows.  Reshaping
    to rows of length zero raises ValueError. *)

Definition is_nil {A} (l : list A) : bool := match l with [] => true | _ => false end.

(** The open interval test of lines 30-34 / 62-64 / 92-94. *)
Definition near_one (eps s : Q) : bool := Qltb s (1 + eps) && Qltb (1 - eps) s.

(** rescale_pdf, distribution_functions.py:10-40. *)
Definition rescale_pdf (eps : Q) (rows : list (list Q)) : result (list (list Q)) :=
  if existsb is_nil rows then Err ValueError
  else if forallb (fun row => near_one eps (qsum row)) rows
  then Ok (map (fun row => map (fun x => x / qsum row) row) rows)
  else Err ValueError.

(** rescale_cdf, distribution_functions.py:43-69. *)
Definition rescale_cdf (eps : Q) (rows : list (list Q)) : result (list (list Q)) :=
  if existsb is_nil rows then Err ValueError
  else if forallb (fun row => near_one eps (last row 0)) rows
  then Ok (map (fun row => map (fun x => x / last row 0) row) rows)
  else Err ValueError.

(** distribution_functions.py:100: [cdf <= np.roll(cdf, -1)] without the last
    column, i.e. each entry is at most its successor. *)
Fixpoint increasing_b (row : list Q) : bool :=
  match row with
  | [] => true
  | x :: t => match t with
              | [] => true
              | y :: _ => Qle_bool x y && increasing_b t
              end
  end.

(** check_valid_cdf, distribution_functions.py:72-105. *)
Definition check_valid_cdf (eps : Q) (rows : list (list Q)) : result bool :=
  if existsb is_nil rows then Err ValueError
  else if negb (forallb (fun row => near_one eps (last row 0)) rows) then Err ValueError
  else if negb (forallb increasing_b rows) then Err ValueError
  else if negb (forallb (forallb (fun c => Qle_bool c (1 + eps) && Qle_bool 0 c)) rows)
  then Err ValueError
  else Ok true.

(** Default tolerance of check_valid_cdf (line 72). *)
Definition eps_cdf : Q := 1 # 1000000.

(** ** demod/simulators/util.py *)

(** assign_external_array, util.py:20-40.  [None] entries are NaN.  A boolean
    mask of another length raises IndexError (line 39). *)
Definition assign_external_array {A} (base : list A) (ext : option (list (option A)))
  : result (list A) :=
  match ext with
  | None => Ok base
  | Some e =>
      if Nat.eqb (length e) (length base)
      then Ok (map2 (fun b x => match x with Some v => v | None => b end) base e)
      else Err IndexError
  end.

(** assign_external_dict, util.py:43-59: loops over the items of the external
    dictionary and rewrites the entry of the base dictionary ([base_dict[key]]
    raises KeyError when absent). *)
Section ExternalDict.
  Variables (K A : Type) (eqb : K -> K -> bool).

  Fixpoint assign_items (base : list (K * list A)) (items : list (K * option (list (option A))))
    : result (list (K * list A)) :=
    match items with
    | [] => Ok base
    | (k, v) :: rest =>
        match dget eqb base k with
        | None => Err KeyError
        | Some b =>
            bind (assign_external_array b v)
                 (fun b' => assign_items (dset eqb base k b') rest)
        end
    end.

  Definition assign_external_dict (base : list (K * list A))
    (ext : option (list (K * option (list (option A))))) : result (list (K * list A)) :=
    match ext with
    | None => Ok base
    | Some items => assign_items base items
    end.
End ExternalDict.

(** The two implemented sampling algorithms and any other string. *)
Inductive sampling_algo := RealPopulation | MonteCarlo | OtherAlgo.

(** [np.linspace(0, 1, n)], used at util.py:111: n points from 0 to 1 included
    (only 0 when n = 1). *)
Definition linspace01 (n : nat) : list Q :=
  match n with
  | O => []
  | S O => [0]
  | S m => map (fun k => inject_Z (Z.of_nat k) / inject_Z (Z.of_nat m)) (seq 0 n)
  end.

(** sample_population, util.py:83-123.  [draws] are the uniform draws made by
    monte_carlo_from_1d_cdf (one per sample). *)
Definition sample_population (n : nat) (pdf : list Q) (algo : sampling_algo) (draws : list Q)
  : result (list nat) :=
  let cdf := cumsum pdf in
  bind (check_valid_cdf eps_cdf [cdf]) (fun _ =>
  bind (match algo with
        | RealPopulation => Ok (map (searchsorted cdf) (linspace01 n))
        | MonteCarlo => mc_from_1d_cdf cdf draws
        | OtherAlgo => Err NotImplementedError
        end) (fun inds =>
  Ok (bincount inds (length cdf)))).
