(** * Transitions of the American time use survey
    (demod/datasets/ATUS/parse_data.py 441-784, 970-975).

    A list of transitions is three parallel arrays: times, persons, new states.

    Simplifications: times, persons and states are not negative (python integers);
    the initial states are arrays.  The index [[array, array]] of lines 548 and 750 is
    read as a tuple (numpy before 1.23), as in Parse_Model.v.  Printing is left out. *)

From Coq Require Import List ZArith QArith Bool Arith.
From Verif Require Import Prelude Parse_Model.
Import ListNotations.
Local Open Scope nat_scope.

(** ** Checks *)

Definition require (b : bool) : result unit := if b then Ok tt else Err AssertionError.

(** [max] of an array. *)
Definition py_max (l : list nat) : result nat := match l with [] => Err ValueError | _ => Ok (list_max_nat l) end.

(** Lines 452-459, 505-512, 587-594, 657-664: a size given or deduced. *)
Definition size_of (given : option nat) (l : list nat) : result nat :=
  bind (py_max l) (fun m =>
  match given with
  | None => Ok (S m)
  | Some n => bind (require (m <? n)) (fun _ => Ok n)
  end).

(** Lines 460-464, 513-517, 665-669: the number of states; it is compared to the
    initial states only if it is given ([max(None)] is a TypeError). *)
Definition states_size (given : option nat) (news : list nat) (initial : option (list nat)) : result nat :=
  bind (size_of given news) (fun k =>
  match given with
  | None => Ok k
  | Some _ =>
      match initial with
      | None => Err TypeError
      | Some l => bind (py_max l) (fun m => bind (require (m <? k)) (fun _ => Ok k))
      end
  end).

(** Lines 467-468 and the like. *)
Definition same_lengths (times persons news : list nat) : result unit :=
  bind (require (length times =? length persons)) (fun _ => require (length times =? length news)).

(** The lines at time [t]: persons and new states. *)
Definition lines_at (t : nat) (times persons news : list nat) : list (nat * nat) :=
  compress (map (Nat.eqb t) times) (combine persons news).

(** Lines 475-476, 533-534, 683-684. *)
Definition check_start (times persons news initial : list nat) : result unit :=
  bind (take_at initial (map fst (lines_at 0 times persons news))) (fun l =>
  require (forallb (fun xy => Nat.eqb (fst xy) (snd xy)) (combine (map snd (lines_at 0 times persons news)) l))).

(** ** Diaries *)

(** [next_states[persons] = new_states], lines 487-489, 547-548. *)
Fixpoint put_all {A} (kvs : list (nat * A)) (l : list A) : result (list A) :=
  match kvs with
  | [] => Ok l
  | (k, v) :: t => bind (set1 k v l) (put_all t)
  end.

(** The loops of lines 480-493 and 541-560: the states at the times [ts], from those
    before. *)
Fixpoint replay (times persons news : list nat) (st : list nat) (ts : list nat) : result (list (list nat)) :=
  match ts with
  | [] => Ok []
  | t :: rest =>
      bind (put_all (lines_at t times persons news) st) (fun st' =>
      bind (replay times persons news st' rest) (fun l => Ok (st' :: l)))
  end.

(** transitions_to_states, lines 441-495. *)
Definition transitions_to_states (times persons news : list nat) (initial : option (list nat)) (n_times n_persons n_states : option nat) :
    result (list (list nat)) :=
  bind (size_of n_times times) (fun n =>
  bind (size_of n_persons persons) (fun m =>
  bind (states_size n_states news initial) (fun _ =>
  bind (same_lengths times persons news) (fun _ =>
  let init := match initial with Some l => l | None => map snd (lines_at 0 times persons news) end in
  bind (require (length init =? m)) (fun _ =>
  bind (check_start times persons news init) (fun _ =>
  bind (replay times persons news init (seq 0 n)) (fun cols => Ok (columns (mkTable m cols))))))))).

(** ** Matrices *)

(** Lines 572, 781-782: rows divided by their sums, nan without counts. *)
Definition to_probs (m : list (list Q)) : list (list (option Q)) := map (fun row => map (fun x => nan_div x (qsum row)) row) m.

(** build_transition_matrices, lines 498-575, with the states of return_states=True. *)
Definition build_transition_matrices (initial times persons news : list nat) (n_times n_persons n_states : option nat) (strategy : tpm_algo) :
    result (list (list (list (option Q))) * list (list nat)) :=
  bind (size_of n_times times) (fun n =>
  bind (size_of n_persons persons) (fun m =>
  bind (states_size n_states news (Some initial)) (fun k =>
  bind (require (length initial =? m)) (fun _ =>
  bind (same_lengths times persons news) (fun _ =>
  bind (check_start times persons news initial) (fun _ =>
  bind (replay times persons news initial (seq 0 n)) (fun cols =>
  bind (count_matrices k initial cols) (fun counts =>
  bind (first_tpm_change strategy counts) (fun counts' =>
  Ok (map to_probs counts', cols)))))))))).

(** ** Fake transitions *)

(** Lines 605-617, 686-697: persons sorted; times sorted for each person, strictly or
    not. *)
Definition sorted_persons (persons : list nat) : bool :=
  forallb (fun pq => fst pq <=? snd pq) (combine persons (tl persons)).

Definition sorted_times (strict : bool) (times persons : list nat) : bool :=
  forallb (fun x => let '((p, t), (p', t')) := x in negb (p =? p') || (if strict then t <? t' else t <=? t'))
    (combine (combine persons times) (tl (combine persons times))).

(** Lines 622-641: accepted when the person changes or the state does. *)
Fixpoint real_from (previous : option (nat * nat)) (l : list (nat * nat)) : list bool :=
  match l with
  | [] => []
  | (p, x) :: t =>
      (match previous with Some (p0, x0) => negb (p0 =? p) || negb (x0 =? x) | None => true end) :: real_from (Some (p, x)) t
  end.

(** get_mask_remove_fake_transitions, lines 579-646. *)
Definition mask_fake (times persons news : list nat) (n_times n_persons n_states : option nat) : result (list bool) :=
  bind (size_of n_times times) (fun _ =>
  bind (size_of n_persons persons) (fun _ =>
  bind (size_of n_states news) (fun _ =>
  bind (same_lengths times persons news) (fun _ =>
  bind (require (sorted_persons persons)) (fun _ =>
  bind (require (sorted_times false times persons)) (fun _ =>
  Ok (real_from None (combine persons news)))))))).

(** ** Durations *)

(** Lines 700-701: first position and number of lines of each person. *)
Definition first_lines (persons : list nat) : list nat := map (fun p => index_in Nat.compare p persons) (uniq Nat.compare persons).

Definition line_counts (persons : list nat) : list nat := map snd (uniq_counts Nat.compare persons).

(** Lines 707-709; the position -1 is the last one. *)
Definition last_lines (len : nat) (firsts counts : list nat) : list nat :=
  map2 (fun fc l => if snd fc =? 1 then fst fc else l) (combine firsts counts)
    (roll_back (map (fun f => match f with 0 => len - 1 | S g => g end) firsts)).

(** [np.roll(l, 1)]. *)
Definition roll_on {A} (l : list A) : list A := match rev l with [] => [] | x :: t => x :: rev t end.

(** The arrays of lines 699-741: the old states, the durations and the lines whose
    durations are counted.  Durations are positive after the checks. *)
Definition line_data (n : nat) (times persons news : list nat) : result (list nat * list nat * list bool) :=
  let firsts := first_lines persons in
  let counts := line_counts persons in
  let lasts := last_lines (length news) firsts counts in
  bind (take_at news firsts) (fun first_states =>
  bind (take_at news lasts) (fun last_states =>
  let merge := map2 Nat.eqb first_states last_states in
  bind (put_all (combine lasts merge) (repeat true (length times))) (fun counted =>
  bind (put_all (combine firsts last_states) (roll_on news)) (fun olds =>
  bind (mapM (fun fc => if snd fc =? 1 then Ok 0 else match nth_error times (S (fst fc)) with Some e => Ok e | None => Err IndexError end) (combine firsts counts)) (fun ends =>
  bind (put_all (combine lasts (map (fun e => n + e) ends)) (roll_back times)) (fun end_times =>
  Ok (olds, map2 Nat.sub end_times times, counted))))))).

(** build_timed_based_transition_matrices, lines 649-784. *)
Definition build_timed (initial times persons news : list nat) (n_times n_persons n_states : option nat) (strategy : tpm_algo) :
    result (list (list (list (option Q))) * list (list (list (option Q)))) :=
  bind (size_of n_times times) (fun n =>
  bind (size_of n_persons persons) (fun m =>
  bind (states_size n_states news (Some initial)) (fun k =>
  bind (require (length initial =? m)) (fun _ =>
  bind (same_lengths times persons news) (fun _ =>
  bind (check_start times persons news initial) (fun _ =>
  bind (require (sorted_persons persons)) (fun _ =>
  bind (require (sorted_times true times persons)) (fun _ =>
  bind (line_data n times persons news) (fun d =>
  let '(olds, durations, counted) := d in
  bind (assign set3 (uniq_counts cmp3 (zip3 times olds news)) (zeros3 n k k)) (fun moves =>
  bind (assign set3 (uniq_counts cmp3 (zip3 (compress counted times) (compress counted news) (compress counted durations))) (zeros3 n k (S n))) (fun stays =>
  bind (first_tpm_change strategy moves) (fun moves' =>
  bind (first_tpm_change strategy stays) (fun stays' =>
  Ok (map to_probs moves', map to_probs stays')))))))))))))).

(** ** Stacked states *)

(** [np.apply_along_axis] stores the rows in an array of the shape of the first one: a
    row of one entry is broadcast, another length is a ValueError. *)
Definition store_row {A} (n : nat) (row : list A) : result (list A) :=
  if length row =? n then Ok row else match row with [x] => Ok (repeat x n) | _ => Err ValueError end.

(** stack_states, lines 970-975, on rows of states (times x persons): [np.bincount] of
    each row.  Without persons the result is nan. *)
Definition stack_states (states : list (list nat)) (n_states : option nat) : result (list (list (option Q))) :=
  bind (match n_states with Some k => Ok k | None => bind (py_max (concat states)) (fun m => Ok (S m)) end) (fun k =>
  let counts := map (fun row => map (fun c => inject_Z (Z.of_nat c)) (bincount row k)) states in
  match counts with
  | [] => Err ValueError
  | c :: _ => bind (mapM (store_row (length c)) counts) (fun l => Ok (map (map (fun x => nan_div x (qsum c))) l))
  end).
