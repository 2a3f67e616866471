(** * The lighting simulator of demod/simulators/crest_simulators.py, lines 720-943
    ([CRESTLightingSimulator]), the older of the two.

    Differences with lighting_simulators.py ([Light_Model]): the times left are floats that
    keep the fractional part of the durations drawn and the nan of the missing bulbs, and the
    number of occupancies is checked.  The parameters, the draws of a step and the search of a
    duration are those of [Light_Model].  Floats are exact rationals, nan is [None]; the
    occupancy given to a step is a numpy array of integers. *)

From Coq Require Import String List ZArith QArith Bool Arith.
From Verif Require Import Prelude Parse_Model Sampling_Model Appliance_Model Light_Model.
Import ListNotations.

Open Scope Q_scope.

(** The arrays kept by the simulator. *)
Record osim := OSim {
  o_power : list (list (option Q));   (* bulbs_power *)
  o_use : list (list Q);              (* relative_use *)
  o_thr : list Q;                     (* irradiance_threshold *)
  o_left : list (list (option Q))     (* bulbs_times_left *)
}.

(** crest_simulators.py lines 776-784 [initialize_bulbs]: the powers times zero. *)
Definition old_initialize (method : string) (power : list (list (option Q))) : result (list (list (option Q))) :=
  if String.eqb method "off" then Ok (map (map (option_map (fun x => x * 0))) power) else Err ValueError.

(** crest_simulators.py lines 751-774 [GTOU_sample_bulbs_config] after the reading of the
    sheet: [g] are the Gaussian numbers, [u h j] the draw of bulb j of household h.  The width
    of the array is the largest integer part; [bulbs_power\[i, :n\] = values] takes
    [max(n, 1)] values, and numpy spreads a single value over an empty slice. *)
Definition zmax_list (z : Z) (l : list Z) : Z := fold_left Z.max l z.
Definition old_sample (mean std : Q) (consumptions penetration : list Q) (g : list Q) (u : nat -> nat -> Q) :
  result (list (list Q)) :=
  if negb (Nat.eqb (length penetration) (length consumptions)) then Err AssertionError else
  match map (fun x => trunc (mean + std * x)) g with
  | [] => Err ValueError                                        (* max of an empty sequence *)
  | z :: t =>
      let width := zmax_list z t in
      if Z.ltb width 0 then Err ValueError else                 (* np.zeros with a negative size *)
      mapM (fun hz : nat * Z =>
              let n := Z.to_nat (Z.max (snd hz) 1) in
              bind (mc_from_1d_pdf penetration (map (u (fst hz)) (seq 0 n))) (fun kinds =>
              bind (mapM (vget consumptions) kinds) (fun ps =>
              Ok (firstn (Z.to_nat width) (ps ++ repeat 0 (Z.to_nat width - n))))))
           (combine (seq 0 (length (z :: t))) (z :: t))
  end.

(** crest_simulators.py lines 786-796, 812-837, 843-879: the getters of the
    constructor refuse the same names; the values for "CREST" are written in the code.  The
    ones for "GTOU" are read from a sheet. *)
Definition known_data (data : string) : bool := String.eqb data "CREST" || String.eqb data "GTOU".
Definition crest_params : lpar :=
  LPar (8153686396677 # 1000000000000000)
       [0; 1; 1528 # 1000; 1694 # 1000; 1983 # 1000; 2094 # 1000]
       [111111111111111 # 1000000000000000; 222222222222222 # 1000000000000000; 333333333333333 # 1000000000000000;
        444444444444444 # 1000000000000000; 555555555555556 # 1000000000000000; 666666666666667 # 1000000000000000;
        777777777777778 # 1000000000000000; 888888888888889 # 1000000000000000; 1]
       [1; 2; 3; 5; 9; 17; 28; 50; 92] [1; 2; 4; 8; 16; 27; 49; 91; 259].

(** crest_simulators.py lines 721-749 [__init__] and 798-810 [get_bulbs_configuration] with
    "CREST": [r] are the configurations drawn, [g] the Gaussian numbers of the thresholds
    (normal of mean 60 and deviation 10), [e] the exponential ones of the relative use.
    The path with "GTOU" goes through the sheet: its powers and numbers are [sheet]. *)
Definition old_init (data method : string) (configs : list (list (option Q))) (r : list nat) (g : list Q)
  (e : nat -> nat -> Q) (sheet : result (list (list Q) * (Q * Q) * lpar)) : result (osim * lpar) :=
  if negb (known_data data) then Err ValueError else
  bind (if String.eqb data "CREST" then bind (bulbs_config configs r) (fun p => Ok (p, (60, 10), crest_params))
        else bind sheet (fun x => Ok (map (map Some) (fst (fst x)), snd (fst x), snd x))) (fun x =>
  let power := fst (fst x) in
  bind (old_initialize method power) (fun left =>
  Ok (OSim power (cells (fun h j _ => e h j) power) (map (fun z => fst (snd (fst x)) + snd (snd (fst x)) * z) g) left, snd x))).

(** [t\[t > 0\] -= 1], and the test [t == 0]; nan is neither. *)
Definition tick (t : option Q) : option Q :=
  match t with None => None | Some x => if Qltb 0 x then Some (x - 1) else Some x end.
Definition is_zero (t : option Q) : bool := match t with None => false | Some x => Qeq_bool x 0 end.

(** crest_simulators.py lines 902-943 [step]. *)
Definition old_step (par : lpar) (s : osim) (d : ldraws) (occ : list Z) (irr : Q) : result osim :=
  (* 905-907 *)
  if negb (Nat.eqb (length occ) (length (o_power s))) then Err AssertionError else
  (* 909 *)
  let left1 := map (map tick) (o_left s) in
  (* 912, 839-841 *)
  bind (active_to_effective par occ) (fun eff =>
  (* 917-920 *)
  let low := map2 (fun t row => map (fun x => Qltb irr t || Qltb x (5 # 100)) row)
                  (o_thr s) (cells (fun h j _ => d_five d h j) (o_power s)) in
  (* 923-925 *)
  let idx := where2 (mmap2 andb low (map (map is_zero) left1)) in
  (* 927-935 *)
  bind (mapM (fun k => bind (vget eff (fst k)) (fun e => bind (mget (o_use s) (fst k) (snd k)) (fun r =>
                Ok (Qltb (d_on d (fst k) (snd k)) (e * r * p_cal par))))) idx) (fun decided =>
  let on := compress decided idx in
  (* 937-940 and 881-889 *)
  if (match p_cdf par with [] => true | _ => false end) then Err ValueError else
  bind (mapM (fun k => draw_duration par (d_int d (fst k) (snd k)) (d_pos d (fst k) (snd k))) on) (fun ds =>
  bind (mput (combine on (map Some ds)) left1) (fun left2 =>
  (* 943 *)
  Ok (OSim (o_power s) (o_use s) (o_thr s)
           (map2 (fun (n : Z) row => if Z.eqb n 0 then map (fun _ => Some 0) row else row) occ left2)))))).

(** crest_simulators.py lines 891-900 (get_electric_consumptions, get_power_demand,
    get_thermal_gains). *)
Definition old_consumption (s : osim) : list Q :=
  map qsum (mmap2 (fun p t => match p with
                              | None => 0
                              | Some x => x * b2q (match t with None => false | Some y => Qltb 0 y end)
                              end) (o_power s) (o_left s)).
