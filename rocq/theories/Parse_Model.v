(** * Model of the dataset parsing helpers (demod/utils/parse_helpers.py).

    A diary table is a two dimensional array: one row per diary (person), one
    column per time step.  States are values of any type with a decidable
    equality; the matrices need integer states.  NaN states are not represented. *)

From Coq Require Import List ZArith QArith Bool Arith.
From Verif Require Import Prelude.
Import ListNotations.

Set Implicit Arguments.

(** ** numpy primitives *)

(** [np.where(mask)[0]], numbering from [i]. *)
Fixpoint where_from (i : nat) (mask : list bool) : list nat :=
  match mask with
  | [] => []
  | b :: t => if b then i :: where_from (S i) t else where_from (S i) t
  end.
Definition where_true (mask : list bool) : list nat := where_from 0 mask.

(** [a[mask]]. *)
Fixpoint compress {A} (mask : list bool) (l : list A) : list A :=
  match mask, l with
  | b :: m, x :: t => if b then x :: compress m t else compress m t
  | _, _ => []
  end.

(** [a[mask] = vals]. *)
Fixpoint mask_assign {A} (mask : list bool) (vals arr : list A) : list A :=
  match mask, arr with
  | true :: m, x :: t =>
      match vals with
      | v :: vs => v :: mask_assign m vs t
      | [] => x :: t
      end
  | false :: m, x :: t => x :: mask_assign m vals t
  | _, _ => arr
  end.

Definition count_true (mask : list bool) : nat := length (filter (fun b => b) mask).

(** [np.unique] for an order given by a comparison. *)
Section Unique.
  Variables (A : Type) (cmp : A -> A -> comparison).

  Fixpoint uins (x : A) (l : list A) : list A :=
    match l with
    | [] => [x]
    | y :: t => match cmp x y with
                | Lt => x :: l
                | Eq => l
                | Gt => y :: uins x t
                end
    end.
  Definition uniq (l : list A) : list A := fold_right uins [] l.

  Definition is_eq (x y : A) : bool := match cmp x y with Eq => true | _ => false end.

  (** return_counts. *)
  Definition count_of (x : A) (l : list A) : nat := length (filter (is_eq x) l).
  Definition uniq_counts (l : list A) : list (A * nat) := map (fun x => (x, count_of x l)) (uniq l).

  (** return_inverse. *)
  Fixpoint index_in (x : A) (l : list A) : nat :=
    match l with [] => 0%nat | y :: t => if is_eq x y then 0%nat else S (index_in x t) end.
End Unique.

(** Lexicographic order, as used by [np.unique(..., axis=...)] on integer columns. *)
Definition cmp_pair {A B} (ca : A -> A -> comparison) (cb : B -> B -> comparison) (x y : A * B) : comparison :=
  match ca (fst x) (fst y) with Eq => cb (snd x) (snd y) | c => c end.
Definition cmp2 : nat * nat -> nat * nat -> comparison := cmp_pair Nat.compare Nat.compare.
Definition cmp3 : nat * nat * nat -> nat * nat * nat -> comparison := cmp_pair cmp2 Nat.compare.
Definition cmp4 : nat * nat * nat * nat -> nat * nat * nat * nat -> comparison := cmp_pair cmp3 Nat.compare.

(** In-place update of one entry of an array. *)
Fixpoint upd {A} (i : nat) (f : A -> result A) (l : list A) : result (list A) :=
  match l, i with
  | [], _ => Err IndexError
  | x :: t, O => bind (f x) (fun y => Ok (y :: t))
  | x :: t, S i => bind (upd i f t) (fun t' => Ok (x :: t'))
  end.

Definition set1 {A} (k : nat) (v : A) (l : list A) : result (list A) := upd k (fun _ => Ok v) l.
Definition set2 {A} (k : nat * nat) (v : A) (m : list (list A)) : result (list (list A)) :=
  upd (fst k) (set1 (snd k) v) m.
Definition set3 {A} (k : nat * nat * nat) (v : A) (m : list (list (list A))) : result (list (list (list A))) :=
  upd (fst (fst k)) (set2 (snd (fst k), snd k) v) m.
Definition set4 {A} (k : nat * nat * nat * nat) (v : A) (m : list (list (list (list A)))) :
    result (list (list (list (list A)))) :=
  upd (fst (fst (fst k))) (set3 (snd (fst (fst k)), snd (fst k), snd k) v) m.

(** [m[ks] = counts] for an array [m] and the keys and counts of [np.unique]. *)
Fixpoint assign {K M} (set : K -> Q -> M -> result M) (kvs : list (K * nat)) (m : M) : result M :=
  match kvs with
  | [] => Ok m
  | (k, c) :: t => bind (set k (inject_Z (Z.of_nat c)) m) (assign set t)
  end.

Definition zeros1 (n : nat) : list Q := repeat 0 n.
Definition zeros2 (n m : nat) := repeat (zeros1 m) n.
Definition zeros3 (n m k : nat) := repeat (zeros2 m k) n.
Definition zeros4 (n m k j : nat) := repeat (zeros3 m k j) n.

(** A diary table: its number of time steps and its rows. *)
Record table (A : Type) : Type := mkTable { width : nat; rows : list (list A) }.

(** A numpy array is rectangular. *)
Definition rectangular {A} (t : table A) : bool :=
  forallb (fun r => length r =? width t)%nat (rows t).

(** [states[:, i]] and [states.T]. *)
Definition column {A} (t : table A) (i : nat) : list A :=
  flat_map (fun r => match nth_error r i with Some x => [x] | None => [] end) (rows t).
Definition columns {A} (t : table A) : list (list A) := map (column t) (seq 0 (width t)).

(** ** Transitions *)

Section Transitions.
  Variables (A : Type) (eqb : A -> A -> bool).

  (** transitions_dict: four arrays of the same length. *)
  Record trans : Type := mkTrans {
    tr_times : list nat;
    tr_persons : list nat;
    tr_new : list A;
    tr_old : list A
  }.

  (** Body of the loop over time, lines 70-80. *)
  Definition step_mask (same : bool) (old s : list A) : list bool :=
    map2 (fun o x => if same then true else negb (eqb o x)) old s.

  Definition step_trans (same : bool) (i : nat) (old s : list A) : trans :=
    let mask := step_mask same old s in
    mkTrans (repeat i (count_true mask)) (where_true mask) (compress mask s) (compress mask old).

  Definition app_trans (x y : trans) : trans :=
    mkTrans (tr_times x ++ tr_times y) (tr_persons x ++ tr_persons y) (tr_new x ++ tr_new y) (tr_old x ++ tr_old y).

  Fixpoint all_trans (same : bool) (i : nat) (old : list A) (cols : list (list A)) : trans :=
    match cols with
    | [] => mkTrans [] [] [] []
    | s :: t => app_trans (step_trans same i old s) (all_trans same (S i) s t)
    end.

  (** states_to_transitions without durations, lines 12-86. *)
  Definition states_to_transitions (same ignore : bool) (t : table A) : result trans :=
    if rectangular t then
      match columns t with
      | [] => Err IndexError
      | c :: _ => Ok (all_trans same 0 (if ignore then c else last (columns t) c) (columns t))
      end
    else Err ValueError.

  (** Durations of one person, lines 91-107. *)
  Definition roll_back {B} (l : list B) : list B := match l with [] => [] | x :: t => t ++ [x] end.

  Definition set_last {B} (l : list B) (v : B) : list B := removelast l ++ [v].

  Definition person_mask (tr : trans) (p : nat) : list bool := map (Nat.eqb p) (tr_persons tr).

  Definition person_durations (ignore : bool) (n : nat) (tr : trans) (p : nat) : result (list Z) :=
    let mask := person_mask tr p in
    let times := map Z.of_nat (compress mask (tr_times tr)) in
    let duration := map2 Z.sub (roll_back times) times in
    match times, rev times, rev (compress mask (tr_new tr)), compress mask (tr_old tr) with
    | t0 :: _, tl :: _, last_state :: _, first_state :: _ =>
        Ok (set_last duration
              (if eqb first_state last_state then t0 + (Z.of_nat n - tl)
               else if ignore then 0 else Z.of_nat n - tl)%Z)
    | _, _, _, _ => Err IndexError
    end.

  (** Lines 88-110. *)
  Fixpoint all_durations (ignore : bool) (n : nat) (tr : trans) (ps : list nat) (acc : list Z) : result (list Z) :=
    match ps with
    | [] => Ok acc
    | p :: t => bind (person_durations ignore n tr p) (fun d =>
                all_durations ignore n tr t (mask_assign (person_mask tr p) d acc))
    end.

  Definition durations (ignore : bool) (n : nat) (tr : trans) : result (list Z) :=
    all_durations ignore n tr (uniq Nat.compare (tr_persons tr)) (repeat 0%Z (length (tr_times tr))).

  (** states_to_transitions with return_duration=True. *)
  Definition states_to_transitions_durations (same ignore : bool) (t : table A) : result (trans * list Z) :=
    bind (states_to_transitions same ignore t) (fun tr =>
    bind (durations ignore (width t) tr) (fun d => Ok (tr, d))).

  (** states_to_transitions_secondary, lines 115-178: the persons are listed with
      the secondary transitions first, the states with the primary ones first. *)
  Definition gone_mask (old p s : list A) : list bool :=
    map2 (fun o ps => negb (eqb o (fst ps)) && negb (eqb o (snd ps))) old (combine p s).

  Definition step_trans2 (i : nat) (oldp olds p s : list A) : trans :=
    let mp := gone_mask oldp p s in
    let ms := gone_mask olds p s in
    mkTrans (repeat i (count_true mp + count_true ms)) (where_true ms ++ where_true mp)
            (compress mp p ++ compress ms s) (compress mp oldp ++ compress ms olds).

  Fixpoint all_trans2 (i : nat) (oldp olds : list A) (cols : list (list A * list A)) : trans :=
    match cols with
    | [] => mkTrans [] [] [] []
    | (p, s) :: t => app_trans (step_trans2 i oldp olds p s) (all_trans2 (S i) p s t)
    end.

  Definition states_to_transitions_secondary (tp ts : table A) : result trans :=
    if rectangular tp && rectangular ts then
      match columns tp, columns ts with
      | p :: _, s :: _ => Ok (all_trans2 0 p s (combine (columns tp) (columns ts)))
      | _, _ => Err IndexError
      end
    else Err ValueError.
End Transitions.

(** ** group_hh_transitions, lines 181-262, for integer states. *)

(** [arr[indexes]]. *)
Definition take_at {A} (arr : list A) (indexes : list nat) : result (list A) :=
  mapM (fun i => match nth_error arr i with Some x => Ok x | None => Err IndexError end) indexes.

Definition zip5 {A B C D E} (x : list A) (y : list B) (z : list C) (w : list D) (v : list E) : list (A * B * C * D * E) :=
  combine (combine (combine (combine x y) z) w) v.
Definition cmp5 : nat * nat * nat * nat * nat -> nat * nat * nat * nat * nat -> comparison := cmp_pair cmp4 Nat.compare.

(** The result lists (time, new state, old state, household, day) with its count. *)
Definition group_hh_transitions (secondary : option (table nat)) (t : table nat) (households days : list nat) :
    result (list ((nat * nat * nat * nat * nat) * nat)) :=
  bind (match secondary with
        | Some s => states_to_transitions_secondary Nat.eqb t s
        | None => states_to_transitions Nat.eqb false false t
        end) (fun tr =>
  bind (take_at households (tr_persons tr)) (fun hs =>
  bind (take_at days (tr_persons tr)) (fun dys =>
  Ok (uniq_counts cmp5 (zip5 (tr_times tr) (tr_new tr) (tr_old tr) hs dys))))).

(** ** counts_to_pdf, lines 585-608, on the rows along the last dimension.

    Returns the pdfs and the array passed by the caller, which is modified in
    place.  A division by a zero sum gives NaN ([None]). *)

Definition nan_div (x s : Q) : option Q := if Qeq_bool s 0 then None else Some (x / s).

Definition fix_row (row : list Q) : result (list Q) :=
  if Qeq_bool (qsum row) 0 then set1 0 1 row else Ok row.

Definition counts_to_pdf (ensure : bool) (counts : list (list Q)) :
    result (list (list (option Q)) * list (list Q)) :=
  bind (if ensure then mapM fix_row counts else Ok counts) (fun counts =>
  Ok (map (fun row => map (fun x => nan_div x (qsum row)) row) counts, counts)).

(** ** Transition probability matrices *)

Inductive tpm_algo := AlgoLast | AlgoNothing | AlgoUnknown.

(** first_tpm_change, lines 673-695. *)
Definition first_tpm_change {A} (algo : tpm_algo) (l : list A) : result (list A) :=
  match algo with
  | AlgoLast => match l with [] => Err IndexError | x :: t => Ok (last l x :: t) end
  | AlgoNothing => Ok l
  | AlgoUnknown => Err TypeError
  end.

Definition nan_to_zero (x : option Q) : Q := match x with Some q => q | None => 0 end.

(** Counts of the transitions between two columns, lines 643-654.  The index
    [[array, array]] of line 654 is read as a tuple (numpy before 1.23). *)
Definition count_matrix (n : nat) (old s : list nat) : result (list (list Q)) :=
  assign set2 (uniq_counts cmp2 (combine old s)) (zeros2 n n).

Fixpoint count_matrices (n : nat) (old : list nat) (cols : list (list nat)) : result (list (list (list Q))) :=
  match cols with
  | [] => Ok []
  | s :: t => bind (count_matrix n old s) (fun m => bind (count_matrices n s t) (fun ms => Ok (m :: ms)))
  end.

(** Lines 664-668 for one matrix: normalise the rows, NaN becomes 0, and a row
    that sums to zero stays put. *)
Definition stay_row (i : nat) (row : list Q) : result (list Q) :=
  if Qeq_bool (qsum row) 0 then set1 i 1 row else Ok row.

Fixpoint stay_rows (i : nat) (m : list (list Q)) : result (list (list Q)) :=
  match m with
  | [] => Ok []
  | row :: t => bind (stay_row i row) (fun r => bind (stay_rows (S i) t) (fun t' => Ok (r :: t')))
  end.

Definition normalise_row (row : list Q) : list Q := map (fun x => nan_to_zero (nan_div x (qsum row))) row.

Definition normalise (m : list (list Q)) : result (list (list Q)) := stay_rows 0 (map normalise_row m).

(** states_to_tpms, lines 611-670; [labels] is the number of labels if given. *)
Definition states_to_tpms (algo : tpm_algo) (labels : option nat) (t : table nat) : result (list (list (list Q))) :=
  if rectangular t then
    match columns t with
    | [] => Err IndexError
    | c :: _ =>
        bind (match labels with
              | Some n => Ok n
              | None => match concat (rows t) with
                        | [] => Err ValueError
                        | l => Ok (S (list_max_nat l))
                        end
              end) (fun n =>
        bind (count_matrices n (last (columns t) c) (columns t)) (fun ms =>
        bind (first_tpm_change algo ms) (fun ms =>
        mapM normalise ms)))
    end
  else Err ValueError.

(** ** convert_states, lines 265-295.  The labels of the raw and of the merged
    states are of any ordered types; [merge] is the lookup in the dictionary. *)
Section Convert.
  Variables (A B : Type) (cmpA : A -> A -> comparison) (cmpB : B -> B -> comparison).

  Definition convert_states (merge : A -> option B) (raw : list (list A)) : result (list (list nat) * list B) :=
    let u := uniq cmpA (concat raw) in
    let states := map (map (fun x => index_in cmpA x u)) raw in
    bind (match u with
          | [] => Err ValueError  (* np.vectorize on an empty array *)
          | _ => mapM (fun x => match merge x with Some y => Ok y | None => Err KeyError end) u
          end) (fun state_labels =>
    let u_lab := uniq cmpB state_labels in
    let inv_lab := map (fun y => index_in cmpB y u_lab) state_labels in
    bind (mapM (mapM (fun i => match nth_error inv_lab i with Some k => Ok k | None => Err IndexError end)) states)
      (fun merged => Ok (merged, u_lab))).
End Convert.

(** ** get_initial_durations_pdfs, lines 553-582. *)

(** One iteration of the loop, lines 566-575, at time [t]. *)
Definition first_change (first state : list nat) (notfound : list bool) : list bool :=
  map2 andb (map2 (fun p s => negb (p =? s)%nat) first state) notfound.

Definition put_counts (col : nat) (l : list nat) (counts : list (list Q)) : result (list (list Q)) :=
  assign set2 (map (fun uc => ((fst uc, col), snd uc)) (uniq_counts Nat.compare l)) counts.

Fixpoint initial_loop (first : list nat) (t : nat) (cols : list (list nat)) (notfound : list bool)
    (counts : list (list Q)) : result (list bool * list (list Q)) :=
  match cols with
  | [] => Ok (notfound, counts)
  | state :: rest =>
      let mask := first_change first state notfound in
      bind (put_counts t (compress mask first) counts) (fun counts =>
      initial_loop first (S t) rest (map2 (fun f m => f && negb m) notfound mask) counts)
  end.

Definition get_initial_durations_pdfs (t : table nat) : result (list (list (option Q))) :=
  if rectangular t then
    match columns t with
    | [] => Err IndexError
    | first :: _ =>
        let counts := zeros2 (length (uniq Nat.compare (concat (rows t)))) (width t + 1) in
        bind (initial_loop first 0 (columns t) (map (fun _ => true) first) counts) (fun nc =>
        bind (put_counts (width t) (compress (fst nc) first) (snd nc)) (fun counts =>
        bind (counts_to_pdf true counts) (fun r => Ok (fst r))))
    end
  else Err ValueError.

(** ** states_to_tpms_with_durations, lines 429-550. *)

Definition zip3 {A B C} (x : list A) (y : list B) (z : list C) : list (A * B * C) := combine (combine x y) z.
Definition zip4 {A B C D} (x : list A) (y : list B) (z : list C) (w : list D) : list (A * B * C * D) :=
  combine (zip3 x y z) w.

(** Lines 520-529. *)
Definition stays_count (t : table nat) (i : nat) : nat :=
  length (filter (fun r => forallb (Nat.eqb i) r) (rows t)).

Fixpoint full_days (t : table nat) (is : list nat)
    (x : list (list (list Q)) * list (list (list Q)) * list (list (list (list Q)))) :=
  match is with
  | [] => Ok x
  | i :: rest =>
      let '(tpm, dur, durp) := x in
      let number := inject_Z (Z.of_nat (stays_count t i)) in
      bind (set3 (0, i, i)%nat number tpm) (fun tpm =>
      bind (set3 (0, i, width t)%nat number dur) (fun dur =>
      bind (set4 (0, i, i, width t)%nat number durp) (fun durp =>
      full_days t rest (tpm, dur, durp))))
  end.

(** counts_to_pdf(ensure_valid_pdf=True) on arrays of three and four dimensions. *)
Definition pdfs3 (a : list (list (list Q))) : result (list (list (list (option Q)))) :=
  mapM (fun m => bind (counts_to_pdf true m) (fun r => Ok (fst r))) a.
Definition pdfs4 (a : list (list (list (list Q)))) : result (list (list (list (list (option Q))))) :=
  mapM pdfs3 a.

Definition states_to_tpms_with_durations (algo : tpm_algo) (labels : option nat) (ignore : bool) (t : table nat) :
    result (list (list (list Q)) * list (list (list (option Q))) * list (list (list (list (option Q))))) :=
  bind (states_to_transitions_durations Nat.eqb false ignore t) (fun td =>
  let '(tr, ds) := td in
  let ds := map Z.to_nat ds in
  let n := width t in
  let k := match labels with None => length (uniq Nat.compare (concat (rows t))) | Some k => k end in
  bind (assign set3 (uniq_counts cmp3 (zip3 (tr_times tr) (tr_old tr) (tr_new tr))) (zeros3 n k k)) (fun tpm =>
  bind (assign set3 (uniq_counts cmp3 (zip3 (tr_times tr) (tr_new tr) ds)) (zeros3 n k (n + 1))) (fun dur =>
  bind (assign set4 (uniq_counts cmp4 (zip4 (tr_times tr) (tr_old tr) (tr_new tr) ds)) (zeros4 n k k (n + 1))) (fun durp =>
  bind (first_tpm_change algo tpm) (fun tpm =>
  bind (first_tpm_change algo dur) (fun dur =>
  bind (first_tpm_change algo durp) (fun durp =>
  bind (full_days t (seq 0 k) (tpm, dur, durp)) (fun x =>
  let '(tpm, dur, durp) := x in
  bind (pdfs3 dur) (fun dur =>
  bind (pdfs4 durp) (fun durp =>
  bind (mapM normalise tpm) (fun tpm =>
  Ok (tpm, dur, durp)))))))))))).
