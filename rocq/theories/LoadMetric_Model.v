(** * Model of the load metrics (demod/metrics/loads.py).

    A table of profiles has a width and rows of this length. A float that is not
    a number or infinite is [None] (the two are not distinguished). *)

From Coq Require Import List ZArith QArith Qabs Bool.
From Verif Require Import Prelude Parse_Model.
Import ListNotations.

Open Scope Q_scope.

(** np.max of a one dimensional array. *)
Definition q_max (a b : Q) : Q := if Qle_bool a b then b else a.
Definition np_max (l : list Q) : result Q :=
  match l with
  | [] => Err ValueError
  | x :: t => Ok (fold_left q_max t x)
  end.

Definition np_min (l : list Q) : result Q :=
  match l with
  | [] => Err ValueError
  | x :: t => Ok (fold_left (fun a b => if Qle_bool a b then a else b) t x)
  end.

Definition q_div (a b : Q) : option Q := if Qeq_bool b 0 then None else Some (a / b).

(** total_energy_consumed, loads.py:17-37; the step size in seconds. *)
Definition total_energy_consumed (t : table Q) (seconds : Q) : list Q :=
  map (fun r => qsum r * seconds) (rows t).

(** joules_to_kwh, kwh_to_joules, utils/converters.py:9-31. *)
Definition joules_to_kwh (x : Q) : Q := x / 3600000.
Definition kwh_to_joules (x : Q) : Q := x * 3600000.

(** np.sum(profiles, axis=0). *)
Definition aggregated (t : table Q) : list Q := map qsum (columns t).

(** diversity_factor, loads.py:102-116. *)
Definition diversity_factor (t : table Q) : result (option Q) :=
  bind (mapM np_max (rows t)) (fun max_loads =>
  bind (np_max (aggregated t)) (fun m =>
  Ok (q_div (qsum max_loads) m))).

(** coincidence_factor, loads.py:119-128, and simultaneity_factor, 131-140. *)
Definition coincidence_factor (t : table Q) : result (option Q) :=
  bind (diversity_factor t) (fun d => Ok (match d with Some x => q_div 1 x | None => None end)).
Definition simultaneity_factor (t : table Q) : result (option Q) := coincidence_factor t.

(** time_coincident_demand, loads.py:205-219: the maximum of the means of the
    columns. *)
Definition time_coincident_demand (t : table Q) : result (option Q) :=
  match rows t with
  | [] => match columns t with [] => Err ValueError | _ => Ok None end
  | _ => bind (np_max (map (fun c => qsum c / inject_Z (Z.of_nat (length (rows t)))) (columns t))) (fun m => Ok (Some m))
  end.

(** np.sort. *)
Fixpoint q_insert (x : Q) (l : list Q) : list Q :=
  match l with
  | [] => [x]
  | y :: t => if Qle_bool x y then x :: l else y :: q_insert x t
  end.
Definition np_sort (l : list Q) : list Q := fold_right q_insert [] l.

(** np.unique of numbers. *)
Definition np_unique (l : list Q) : list Q := uniq Qcompare l.

(** load_duration, loads.py:222-260. The reshape of a one dimensional input is
    not assigned, so indexing it with three axes fails. *)
Inductive profiles_arg := OneD (l : list Q) | TwoD (t : table Q).

Definition load_duration (p : profiles_arg) (loads : option (list Q)) : result (list Q * list (list nat)) :=
  let all := match p with OneD l => l | TwoD t => concat (rows t) end in
  let ls := match loads with None => np_sort (np_unique all) | Some l => np_sort l end in
  match p with
  | OneD _ => Err IndexError
  | TwoD t => Ok (ls, map (fun r => map (fun x => count_true (map (fun y => Qle_bool x y) r)) ls) (rows t))
  end.

(** np.abs(profiles - np.roll(profiles, -1, axis=1))[:, :-1].reshape(-1). *)
Definition changes (t : table Q) : list Q :=
  concat (map (fun r => removelast (map2 (fun a b => Qabs (a - b)) r (roll_back r))) (rows t)).

(** np.histogram(values, bins, range=(0, hi)) with equal bins, the last one
    closed; numpy widens an empty range by one half on both sides. Values out
    of the range are not counted. *)
Definition edges_of (lo hi : Q) (bins : nat) : list Q :=
  map (fun i => lo + inject_Z (Z.of_nat i) * ((hi - lo) / inject_Z (Z.of_nat bins))) (seq 0 (S bins)).

Definition in_bin (edges : list Q) (bins k : nat) (v : Q) : bool :=
  match nth_error edges k, nth_error edges (S k) with
  | Some a, Some b => Qle_bool a v && (if (S k =? bins)%nat then Qle_bool v b else Qltb v b)
  | _, _ => false
  end.

Definition histogram (values : list Q) (bins : nat) (hi : Q) : list nat * list Q :=
  let (lo, hi) := if Qeq_bool hi 0 then (- (1 # 2), 1 # 2) else (0, hi) in
  let edges := edges_of lo hi bins in
  (map (fun k => count_true (map (in_bin edges bins k) values)) (seq 0 bins), edges).

(** np.cumsum(hist / np.sum(hist)). *)
Definition as_cdf (hist : list nat) : list (option Q) :=
  let n := inject_Z (Z.of_nat (list_sum hist)) in
  if Qeq_bool n 0 then map (fun _ => None) hist
  else map Some (cumsum (map (fun c => inject_Z (Z.of_nat c) / n) hist)).

(** cumulative_changes_in_demand, loads.py:143-202, for profiles of floats.
    When all changes are zero, normalising makes them nan: no bin counts them,
    [np.searchsorted] puts them behind the last edge and comparisons fail. *)
Definition cumulative_changes (t : table Q) (bins : nat) (normalize : bool) (bin_edges : option (list Q)) :
    result (list (option Q) * list Q) :=
  let ch := changes t in
  bind (np_max ch) (fun mx =>
  let nan := normalize && Qeq_bool mx 0 in
  let vals := if normalize then map (fun c => c / mx) ch else ch in
  match bin_edges with
  | None =>
      if (bins =? 0)%nat then Err ValueError
      else let (h, e) := histogram (if nan then [] else vals) bins mx in Ok (as_cdf h, e)
  | Some e =>
      match e with
      | [] => Err IndexError
      | e0 :: _ =>
          if Qle_bool (last e e0) mx then Err ValueError
          else bind (np_min vals) (fun mn =>
               if negb nan && Qltb mn e0 then Err ValueError
               else Ok (as_cdf (tl (bincount (if nan then map (fun _ => length e) ch else map (searchsorted e) vals) 0)), e))
      end
  end).
