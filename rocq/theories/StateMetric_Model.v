(** * Model of the state metrics (demod/metrics/states.py).

    States are natural numbers; a table of states has a width (number of times)
    and one row per pattern. *)

From Coq Require Import List ZArith QArith Qabs Bool Arith.
From Verif Require Import Prelude Parse_Model Appliance_Model LoadMetric_Model.
Import ListNotations.

(** [np.roll(l, 1)]. *)
Definition roll_on {A} (l : list A) : list A := match l with [] => [] | x :: _ => last l x :: removelast l end.

Definition differ (a b : nat) : bool := negb (a =? b).

(** [np.where(states != np.roll(states, 1, axis=1))], states.py:39: row by row. *)
Definition row_changes (r : list nat) : list nat := where_true (map2 differ r (roll_on r)).
Fixpoint changes_from (i : nat) (rs : list (list nat)) : list (nat * nat) :=
  match rs with
  | [] => []
  | r :: t => map (fun j => (i, j)) (row_changes r) ++ changes_from (S i) t
  end.

(** Indexing with an array of integers, which may be negative. *)
Definition take {A} (l : list A) (idx : list Z) : result (list A) :=
  mapM (fun i => bind (py_index (length l) i) (vget l)) idx.

(** [l[idx] = vals] for arrays of the same length: one after the other. *)
Fixpoint put {A} (idx : list Z) (vals l : list A) : result (list A) :=
  match idx, vals with
  | i :: idx', v :: vals' => bind (py_index (length l) i) (fun k => put idx' vals' (firstn k l ++ v :: skipn (S k) l))
  | _, _ => Ok l
  end.

Definition constant (r : list nat) : result bool :=
  match r with [] => Err IndexError | x :: _ => Ok (forallb (Nat.eqb x) r) end.

(** get_states_durations, states.py:18-78. Returns durations and labels. A table
    without columns fails at [states[:, 0]] (when there is no transition it
    fails before, with the same error). *)
Definition get_states_durations (t : table nat) : result (list Z * list nat) :=
  let tr := changes_from 0 (rows t) in
  let hs := map fst tr in
  let ts := map (fun p => Z.of_nat (snd p)) tr in
  let first := if (1 <? length (uniq Nat.compare hs))%nat then where_true (map2 differ hs (roll_on hs)) else [0%nat] in
  let last := roll_back (map (fun i => (Z.of_nat i - 1)%Z) first) in
  let raw := map2 (fun b a => (b - a)%Z) (roll_back ts) ts in
  bind (take ts last) (fun ts_last =>
  bind (take ts (map Z.of_nat first)) (fun ts_first =>
  bind (put last (map2 (fun l f => (Z.of_nat (width t) - l + f)%Z) ts_last ts_first) raw) (fun durations =>
  bind (mapM (fun p => bind (vget (rows t) (fst p)) (fun r => vget r (snd p))) tr) (fun labels =>
  bind (mapM constant (rows t)) (fun no_transition =>
  bind (mapM (fun r => match r with [] => Err IndexError | x :: _ => Ok x end) (compress no_transition (rows t))) (fun first_states =>
  Ok (durations ++ map (fun _ => Z.of_nat (width t)) first_states, labels ++ first_states))))))).

(** get_durations_by_states, states.py:81-100: a dictionary from the labels. *)
Definition by_states (durations : list Z) (labels : list nat) : list (nat * list Z) :=
  map (fun s => (s, compress (map (Nat.eqb s) labels) durations)) (uniq Nat.compare labels).
Definition get_durations_by_states (t : table nat) : result (list (nat * list Z)) :=
  bind (get_states_durations t) (fun '(d, l) => Ok (by_states d l)).

(** count, states.py:103-116. *)
Definition count (l : list nat) : list (nat * nat) := uniq_counts Nat.compare l.

Open Scope Q_scope.

Definition q_nat (n : nat) : Q := inject_Z (Z.of_nat n).

(** [np.cumsum(np.bincount(d, minlength=m) / len(d))], states.py:359-366; the
    durations are positive. *)
Definition duration_cdf (d : list Z) (m : nat) : list Q :=
  cumsum (map (fun c => q_nat c / q_nat (length d)) (bincount (map Z.to_nat d) m)).

(** state_duration_distribution_metric, states.py:293-372. The loop over the
    set of the states is taken in increasing order: the dictionary does not
    depend on it, except for which error comes first. The arrays of different
    length cannot be broadcast (both have at least two entries, as the tables
    have a column). *)
Definition dict_get (d : list (nat * list Z)) (s : nat) : result (list Z) :=
  match dget Nat.eqb d s with Some v => Ok v | None => Err KeyError end.

Definition distribution_error (sim mes : list (nat * list Z)) (n_times s : nat) : result (list Q) :=
  bind (dict_get sim s) (fun a =>
  bind (dict_get mes s) (fun b =>
  let ca := duration_cdf a (n_times + 1) in
  let cb := duration_cdf b (n_times + 1) in
  if (length ca =? length cb)%nat then Ok (map2 (fun x y => Qabs (x - y)) ca cb) else Err ValueError)).

Definition q_mean (l : list Q) : option Q := q_div (qsum l) (q_nat (length l)).

Definition duration_distribution_errors (sim mes : table nat) : result (list (nat * list Q)) :=
  bind (get_durations_by_states sim) (fun a =>
  bind (get_durations_by_states mes) (fun b =>
  mapM (fun s => bind (distribution_error a b (width mes) s) (fun e => Ok (s, e))) (uniq Nat.compare (map fst a ++ map fst b)))).

(** With [average_over_timestep]. *)
Definition duration_distribution (sim mes : table nat) : result (list (nat * option Q)) :=
  bind (duration_distribution_errors sim mes) (fun d => Ok (map (fun p => (fst p, q_mean (snd p))) d)).

(** average_state_metric, states.py:225-290; mean of no row is nan. *)
Definition column_means (t : table Q) : list (option Q) := map q_mean (columns t).

Definition broadcast {A} (f : A -> A -> A) (a b : list A) : result (list A) :=
  if (length a =? length b)%nat then Ok (map2 f a b)
  else match a, b with
       | [x], _ => Ok (map (f x) b)
       | _, [y] => Ok (map (fun x => f x y) a)
       | _, _ => Err ValueError
       end.

Definition opt_abs_diff (x y : option Q) : option Q :=
  match x, y with Some a, Some b => Some (Qabs (a - b)) | _, _ => None end.

Definition average_errors (sim mes : table Q) : result (list (option Q)) :=
  broadcast opt_abs_diff (column_means sim) (column_means mes).

Fixpoint opt_all (l : list (option Q)) : option (list Q) :=
  match l with
  | [] => Some []
  | Some x :: t => match opt_all t with Some r => Some (x :: r) | None => None end
  | None :: _ => None
  end.

Definition average_state_metric (sim mes : table Q) : result (option Q) :=
  bind (average_errors sim mes) (fun e => Ok (match opt_all e with Some l => q_mean l | None => None end)).

(** graph_metrics, states.py:119-210. An edge is (time of the end, source, end)
    with its weight; [np.where] on the matrices of the counts lists them by time
    and then in lexicographical order, as [np.unique] does. *)
Fixpoint edges_from (t : nat) (old : list nat) (cols : list (list nat)) : list ((nat * nat * nat) * nat) :=
  match cols with
  | [] => []
  | s :: rest => map (fun '((a, b), c) => ((t, a, b), c)) (uniq_counts cmp2 (combine old s)) ++ edges_from (S t) s rest
  end.

Record graph := mkGraph { network_size : nat; network_density : Q; centrality : Q; homophily : Q }.

Definition e_source (e : (nat * nat * nat) * nat) : nat := snd (fst (fst e)).
Definition e_end (e : (nat * nat * nat) * nat) : nat := snd (fst e).
Definition e_time (e : (nat * nat * nat) * nat) : nat := fst (fst (fst e)).

Definition graph_metrics (t : table nat) : result graph :=
  match rows t, columns t with
  | [], _ | _, [] => Err ValueError
  | _, c0 :: _ =>
      let es := edges_from 0 (last (columns t) c0) (columns t) in
      let ids := map (fun e => (e_time e, e_source e)) es ++ map (fun e => (e_time e, e_end e)) es in
      let possible := ((length (columns t) - 1) * (length (uniq Nat.compare (map e_source es)) ^ 2))%nat in
      if (possible =? 0)%nat then Err ZeroDivisionError
      else Ok (mkGraph (length (uniq cmp2 ids)) (q_nat (length es) / q_nat possible)
                 (q_nat (list_sum (map snd es)) / q_nat (length es))
                 (q_nat (list_sum (map (fun e => if (e_end e =? e_source e)%nat then snd e else 0%nat) es)) / q_nat (list_sum (map snd es))))
  end.

(** sparsity, states.py:213-222, of the flattened matrices; nan for no entry. *)
Definition sparsity (tpm : list Q) : option Q :=
  match q_div (q_nat (length (filter (fun x => Qltb 0 x) tpm))) (q_nat (length tpm)) with Some x => Some (1 - x) | None => None end.
