(** * Model of the German time of use survey: its parser and the loader.

    Source: demod/datasets/GermanTOU/parser.py and
    demod/datasets/GermanTOU/loader.py.  The tables of the survey are arguments;
    activity codes are integers.  Diary tables have one row per diary and one
    column per ten minutes.  The dates and notes of the legend are not
    represented. *)

From Coq Require Import String List ZArith QArith Bool Arith.
From Verif Require Import Prelude Parse_Model Appliance_Model StateMetric_Model Sparse_Model.
Import ListNotations.
Local Open Scope string_scope.

Definition cell2 {A B C} (f : A -> B -> C) (a : list (list A)) (b : list (list B)) : list (list C) := map2 (map2 f) a b.

(** [labels[states]]. *)
Definition read_labels {A} (labels : list A) (states : list (list nat)) : result (list (list A)) :=
  mapM (mapM (vget labels)) states.

(** A dictionary from activity codes. *)
Notation codes V := (list (Z * V)).
Definition merge {V} (d : codes V) (x : Z) : option V := dget Z.eqb d x.

(** ** Occupancy *)

(** is_transportation, parser.py:1506-1516. *)
Definition is_transportation (s : Z) : bool :=
  ((900 <=? s) && negb (s =? 997) && negb (s =? 999) && negb (s =? 998))%Z.

(** is_for_work_or_school, parser.py:1519-1528. *)
Definition is_for_work_or_school (s : Z) : bool :=
  (((200 <=? s) && (s <? 400)) || ((900 <=? s) && (s <=? 940)))%Z.

(** parser.py:53: where the diary ends if this is not answered (-2). *)
Definition final_location (initial final : list Z) : list Z :=
  map2 (fun f r => if (f =? -2)%Z then r else f) final (roll_on initial).

(** The last time at which a travel is recorded, or -42 (parser.py:1563). *)
Definition travels (ps ss : list Z) : list bool :=
  map2 (fun p s => is_transportation p || is_transportation s) ps ss.
Definition last_travel (ps ss : list Z) : Z :=
  match rev (where_true (travels ps ss)) with [] => (-42)%Z | i :: _ => Z.of_nat i end.

(** One entry of current_occupancy, mask_was_travelling and
    mask_at_home_before_last_travel: the masked assignments of the loop act on
    every person separately. *)
Record person_state : Type := mkPS { at_home : bool; was_travelling : bool; home_before : bool }.

(** Lines 1570-1594 for one person at time [i].  [last] is the rating of the last
    column, [final] the final location.  Line 1593 assigns the mask of the
    previous time to the mask of this time, so [was_travelling] is kept. *)
Definition occupancy_step (end_travel final last : Z) (i : nat) (x : bool * Z) (st : person_state) : person_state :=
  let travelling := fst x in
  let leave := negb (was_travelling st) && travelling in
  let before := if leave then at_home st else home_before st in
  let here := if leave then false else at_home st in
  let finish := was_travelling st && negb travelling in
  let bias := (if before then -1 else 1)%Z in
  let here := if finish then (0 <=? snd x + bias)%Z else here in
  let after_last := (end_travel =? Z.of_nat i - 1)%Z in
  let here := if after_last && (final =? 1)%Z then true else here in
  let here := if after_last && (final =? 2)%Z then false else here in
  let here := if after_last && (final =? -1)%Z then negb (last =? 0)%Z else here in
  mkPS here (was_travelling st) before.

Fixpoint occupancy_loop (end_travel final last : Z) (i : nat) (xs : list (bool * Z)) (st : person_state) : list bool :=
  match xs with
  | [] => []
  | x :: t => let st' := occupancy_step end_travel final last i x st in
              at_home st' :: occupancy_loop end_travel final last (S i) t st'
  end.

(** Lines 1554-1559 for one person: [first] is the rating of the first column. *)
Definition initially_home (initial first : Z) : bool :=
  if (initial =? 1)%Z then true else if (initial =? -1)%Z then (0 <=? first)%Z else false.

Definition person_occupancy (ps ss ratings : list Z) (initial final : Z) : result (list bool) :=
  match ratings with
  | [] => Err IndexError
  | first :: _ =>
      Ok (occupancy_loop (last_travel ps ss) final (List.last ratings 0%Z) 0 (combine (travels ps ss) ratings)
            (mkPS (initially_home initial first) false false))
  end.

(** states_to_occupancy, parser.py:1531-1596.  Lines 1549-1551 add the indices of
    the rating labels, not the ratings themselves. *)
Fixpoint map5M {A B C D E F} (f : A -> B -> C -> D -> E -> result F) (a : list A) (b : list B) (c : list C) (d : list D) (e : list E) : result (list F) :=
  match a, b, c, d, e with
  | x :: a, y :: b, z :: c, w :: d, v :: e =>
      bind (f x y z w v) (fun r => bind (map5M f a b c d e) (fun rs => Ok (r :: rs)))
  | _, _, _, _, _ => Ok []
  end.

Definition states_to_occupancy (primary secondary : list (list Z)) (initial final : list Z) (dic_home : codes Z) :
    result (list (list bool)) :=
  bind (convert_states Z.compare Z.compare (merge dic_home) primary) (fun m =>
  bind (convert_states Z.compare Z.compare (merge dic_home) secondary) (fun s =>
  let ratings := cell2 (fun a b => Z.of_nat a + Z.of_nat b)%Z (fst m) (fst s) in
  map5M person_occupancy primary secondary ratings initial final)).

(** states_to_out_for_what_model, parser.py:1598-1615: 0 in the house, 1 out for
    work or school, 2 out for another reason. *)
Definition out_for_what (o : bool) (p s : Z) : Z :=
  if o then 0%Z else if is_for_work_or_school p || is_for_work_or_school s then 1%Z else 2%Z.
Definition states_to_out_for_what_model (occ : list (list bool)) (primary secondary : list (list Z)) : list (list Z) :=
  map2 (fun o ps => map2 (fun b p => out_for_what b (fst p) (snd p)) o (combine (fst ps) (snd ps))) occ (combine primary secondary).

(** ** Households *)

(** The pairs (day, household), sorted (lines 1685 and 1707). *)
Definition cmp_ints : Z * Z -> Z * Z -> comparison := cmp_pair Z.compare Z.compare.
Definition household_days (households days : list Z) : list (Z * Z) := uniq cmp_ints (combine days households).

(** [np.sum(rows, axis=0)] for rows of [w] entries. *)
Definition sum_rows (w : nat) (rs : list (list Z)) : list Z := fold_left (map2 Z.add) rs (repeat 0%Z w).

(** group_in_household_activity, parser.py:1690-1709. *)
Definition group_in_household_activity (t : table Z) (households days : list Z) : result (list (list Z)) :=
  if ((length (rows t) =? length households) && (length (rows t) =? length days))%nat then
    Ok (map (fun dh => sum_rows (width t)
               (compress (map2 (fun h d => (h =? snd dh) && (d =? fst dh))%Z households days) (rows t)))
            (household_days households days))
  else Err AssertionError.

(** group_in_household_4states, parser.py:1668-1687. *)
Definition is_4state (x : Z) : bool := ((x =? 0) || (x =? 1) || (x =? 10) || (x =? 11))%Z.
Definition group_in_household_4states (t : table Z) (households days : list Z) : result (list (list Z)) :=
  if forallb (forallb is_4state) (rows t) then group_in_household_activity t households days
  else Err AssertionError.

(** ** The survey *)

(** The arrays computed when the parser is imported; [occ] and [act] are lines
    1715 and 1716. *)
Record survey : Type := mkSurvey {
  steps : nat;
  primary : list (list Z);
  secondary : list (list Z);
  occ : list (list bool);
  act : list (list Z);
  households : list Z;
  days : list Z
}.

Definition bool_Z (b : bool) : Z := if b then 1%Z else 0%Z.

(** ** Labelled states: parser.py:1752-1790 and loader.py:276-314. *)

(** [labels[labels=='-'] = 'other']: the strings of a numpy array are cut to the
    length of the longest one. *)
Definition label_width (labels : list string) : nat := list_max_nat (map String.length labels).
Definition rename_dash (labels : list string) : list string :=
  map (fun l => if String.eqb l "-" then substring 0 (label_width labels) "other" else l) labels.

Definition put_away (o : bool) (x : Z) : Z := if o then x else 0%Z.

Definition use_second (w : nat) (a b : string) : string :=
  if String.eqb a "other" && negb (String.eqb b "other") then substring 0 w b else a.

(** The second table is read from the primary states (line 1768; loader.py:294). *)
Definition labelled_states (add_away use_sec : bool) (dict : codes string) (sv : survey) (mask : list bool) :
    result (list (list nat) * list string) :=
  let raw := compress mask (primary sv) in
  let raw' := if add_away then cell2 put_away (compress mask (occ sv)) raw else raw in
  let dict := if add_away then dset Z.eqb dict 0%Z "away" else dict in
  bind (convert_states Z.compare String.compare (merge dict) raw') (fun '(states, u) =>
  let labels := rename_dash u in
  bind (if use_sec then
          bind (convert_states Z.compare String.compare (merge dict) raw) (fun '(sec_states, sec_u) =>
          let sec_labels := rename_dash sec_u in
          bind (read_labels labels states) (fun a =>
          bind (read_labels sec_labels sec_states) (fun b =>
          convert_states String.compare String.compare Some (cell2 (use_second (label_width u)) a b))))
        else Ok (states, labels)) (fun '(states, labels) =>
  let all_activities := map snd dict in
  Ok (states, (labels ++ filter (fun a => negb (str_in a labels)) all_activities)%list))).

(** get_states, loader.py:253-333.  [dict] is the dictionary of the activity type,
    if there is one. *)
Definition get_states (dict : option (codes string)) (sv : survey) (mask : list bool) : result (list (list string)) :=
  match dict with
  | None => Err ValueError
  | Some d => bind (labelled_states true true d sv mask) (fun '(states, labels) => read_labels labels states)
  end.

(** The households and the days returned next to the states. *)
Definition states_households (sv : survey) (mask : list bool) : list Z := compress mask (households sv).
Definition states_days (sv : survey) (mask : list bool) : list Z := compress mask (days sv).

(** ** get_tpms_activity, parser.py:1732-1822. *)

(** [np.bincount(states[:,0], minlength=n) / sum]. *)
Definition initial_pdf (states : list (list nat)) (n : nat) : result (list (option Q)) :=
  bind (mapM (fun r => vget r 0) states) (fun first =>
  let counts := map q_nat (bincount first n) in
  Ok (map (fun c => nan_div c (qsum counts)) counts)).

Definition get_tpms_activity (add_away use_sec : bool) (dict : codes string) (algo : tpm_algo) (sv : survey) (mask : list bool) :
    result (list (list (list Q)) * list string * list (option Q)) :=
  bind (labelled_states add_away use_sec dict sv mask) (fun '(states, labels) =>
  bind (initial_pdf states (length labels)) (fun init =>
  bind (states_to_tpms algo (Some (length labels)) (mkTable (steps sv) states)) (fun tpm =>
  Ok (tpm, labels, init)))).

(** ** get_data_4states without durations, parser.py:1826-1873. *)

Definition four_states (sv : survey) : list (list Z) := cell2 (fun o a => (10 * bool_Z o + a)%Z) (occ sv) (act sv).

Definition get_data_4states (algo : tpm_algo) (sv : survey) (mask : list bool) :
    result (list (list (list Q)) * list Z * list (option Q)) :=
  bind (group_in_household_4states (mkTable (steps sv) (compress mask (four_states sv)))
          (compress mask (households sv)) (compress mask (days sv))) (fun hh =>
  bind (convert_states Z.compare Z.compare Some hh) (fun '(states, labels) =>
  bind (initial_pdf states (length labels)) (fun init =>
  bind (states_to_tpms algo None (mkTable (steps sv) states)) (fun tpm =>
  Ok (tpm, labels, init))))).

(** get_active_occupancy, parser.py:1719-1730. *)
Definition get_active_occupancy (sv : survey) (mask : list bool) : result (list Z) :=
  bind (group_in_household_activity
          (mkTable (steps sv) (compress mask (cell2 (fun o a => Z.land (bool_Z o) a) (occ sv) (act sv))))
          (compress mask (households sv)) (compress mask (days sv))) (fun hh =>
  Ok (sum_rows (steps sv) hh)).

(** ** get_data_sparse9states, parser.py:1875-1933. *)

Definition max_people : Z := 7.

Definition persona (out : Z) (active : bool) : Z :=
  if (out =? 0)%Z then bool_Z active else (max_people ^ (1 + out - 1))%Z.

Definition personas_states (dict : codes string) (sv : survey) : result (list (list Z)) :=
  bind (convert_states Z.compare String.compare (merge dict) (primary sv)) (fun '(p, plab) =>
  bind (convert_states Z.compare String.compare (merge dict) (secondary sv)) (fun '(s, slab) =>
  bind (read_labels plab p) (fun pl =>
  bind (read_labels slab s) (fun sl =>
  let active := cell2 (fun a b => negb (String.eqb a "not active") && negb (String.eqb b "not active")) pl sl in
  Ok (cell2 persona (states_to_out_for_what_model (occ sv) (primary sv) (secondary sv)) active))))).

Definition hh_sparse_states (dict : codes string) (sv : survey) (mask : list bool) : result (list (list Z)) :=
  bind (personas_states dict sv) (fun ps =>
  group_in_household_activity (mkTable (steps sv) (compress mask ps)) (compress mask (households sv)) (compress mask (days sv))).

(** ** states_to_sparse_tpm, parser.py:1619-1666. *)

(** transitions: the triples (time, state, next state), time by time. *)
Definition all_moves (w : nat) (states : list (list nat)) : result (list (nat * nat * nat)) :=
  bind (mapM (fun i => mapM (fun r => bind (vget r i) (fun a => bind (vget (roll_back r) i) (fun b => Ok (i, a, b)))) states)
             (seq 0 w)) (fun cols => Ok (concat cols)).

(** probs: the count of a transition over the count of its time and state. *)
Definition move_probs (moves : list (nat * nat * nat)) : list ((nat * nat * nat) * Q) :=
  map (fun mc => (fst mc, (q_nat (snd mc) / q_nat (count_of cmp2 (fst (fst mc)) (map fst moves)))%Q)) (uniq_counts cmp3 moves).

Definition states_to_sparse_tpm (algo : tpm_algo) (w : nat) (states : list (list nat)) : result tpm :=
  bind (all_moves w states) (fun moves =>
  let ps := move_probs moves in
  bind (sp_init (map (fun x => Z.of_nat (fst (fst (fst x)))) ps) (map (fun x => Z.of_nat (snd (fst (fst x)))) ps)
          (map (fun x => Z.of_nat (snd (fst x))) ps) (map snd ps) None None None) (fun p =>
  match algo with
  | AlgoLast => bind (sp_get p (KInt (-1))) (sp_set p (KInt 0))
  | AlgoNothing => Ok p
  | AlgoUnknown => Err TypeError
  end)).

Definition get_data_sparse9states (dict : codes string) (sv : survey) (mask : list bool) :
    result (tpm * list Z * list (option Q)) :=
  bind (hh_sparse_states dict sv mask) (fun hh =>
  bind (convert_states Z.compare Z.compare Some hh) (fun '(states, labels) =>
  bind (states_to_sparse_tpm AlgoNothing (steps sv) states) (fun p =>
  bind (initial_pdf states (Z.to_nat (n_states p))) (fun init =>
  Ok (p, labels, init))))).

(** ** Statistics of the loader *)

(** Strings as states: the position of every label among the sorted labels, which
    has the same order and equality. *)
Definition number_labels (states : list (list string)) : list (list nat) * list string :=
  let u := uniq String.compare (concat states) in
  (map (map (fun x => index_in String.compare x u)) states, u).

(** _parse_activity_duration, loader.py:335-344. *)
Definition parse_activity_duration (w : nat) (states : list (list string)) : result (list (string * list Q)) :=
  let '(s, u) := number_labels states in
  bind (get_durations_by_states (mkTable w s)) (fun d =>
  mapM (fun kv => bind (vget u (fst kv)) (fun act =>
        Ok (act, map (fun c => (q_nat c / q_nat (length (snd kv)))%Q) (bincount (map Z.to_nat (snd kv)) 0)))) d).

(** _parse_daily_activity_starts, loader.py:346-385.  The household ids and days
    are not negative (np.bincount). *)
Definition starts_pdf (keys : list Z) (n : nat) : list Q :=
  map (fun c => (q_nat c / q_nat n)%Q) (bincount (bincount (map Z.to_nat keys) 0) 0).

Definition parse_daily_activity_starts (w : nat) (states : list (list string)) (hh ds : list Z) : result (list (string * list Q)) :=
  bind (states_to_transitions String.eqb false false (mkTable w states)) (fun tr =>
  bind (take_at hh (tr_persons tr)) (fun h =>
  bind (take_at ds (tr_persons tr)) (fun d =>
  let hh_day := map2 (fun x y => x * 4 + y)%Z h d in
  let starts := fun f => starts_pdf (compress (map f (tr_new tr)) hh_day) (length states) in
  Ok (dset String.eqb (map (fun a => (a, starts (String.eqb a))) (uniq String.compare (tr_new tr)))
        "active_occupancy" (starts (fun a => String.eqb a "sleeping" || String.eqb a "away")))))).

(** _parse_activity_probabilities, loader.py:387-404. *)
Definition clip01 (x : Q) : Q := if Qltb x 0 then 0%Q else if Qltb 1 x then 1%Q else x.

Definition share_of (t : table string) (a : string) : list Q :=
  map (fun c => (q_nat (count_true (map (String.eqb a) c)) / q_nat (length c))%Q) (columns t).

Definition parse_activity_probabilities (w : nat) (states : list (list string)) : result (list (string * list Q)) :=
  let t := mkTable w states in
  let d := map (fun a => (a, share_of t a)) (uniq String.compare (concat states)) in
  match dget String.eqb d "away", dget String.eqb d "sleeping" with
  | Some a, Some s => Ok (dset String.eqb d "active_occupancy" (map2 (fun x y => clip01 (1 - x - y)) a s))
  | _, _ => Err KeyError
  end.

(** ** create_data_activity_profile, parser.py:1938-2019: the array of one
    activity.  Lines 1987-1997 compare the indices of the labels, which is the same
    as comparing the labels. *)
Definition performs (name : string) (a b : string) : Z := bool_Z (String.eqb a name || String.eqb b name).

Definition active_occupants (x : Z) : Z := Z.min (x mod 10) (x / 10).

Definition profile_entry (n : Z) (doing active : list Z) : Q :=
  let n_hh := count_true (map (Z.eqb n) active) in
  let both := count_true (map2 (fun k a => (0 <? k)%Z && (a =? n)%Z) doing active) in
  nan_to_zero (nan_div (q_nat both) (q_nat n_hh)).

Definition activity_profile (dict : codes string) (name : string) (sv : survey) (mask : list bool) : result (list (list Q)) :=
  let hs := compress mask (households sv) in
  let ds := compress mask (days sv) in
  bind (convert_states Z.compare String.compare (merge dict) (compress mask (primary sv))) (fun '(p, plab) =>
  bind (convert_states Z.compare String.compare (merge dict) (compress mask (secondary sv))) (fun '(s, slab) =>
  bind (read_labels plab p) (fun pl =>
  bind (read_labels slab s) (fun sl =>
  bind (group_in_household_4states (mkTable (steps sv) (compress mask (four_states sv))) hs ds) (fun hh =>
  bind (group_in_household_activity (mkTable (steps sv) (cell2 (performs name) pl sl)) hs ds) (fun doing =>
  let active := map (map active_occupants) hh in
  mapM (fun i =>
    bind (mapM (fun r => vget r i) doing) (fun dcol =>
    bind (mapM (fun r => vget r i) active) (fun acol =>
    Ok (0%Q :: map (fun n => profile_entry (Z.of_nat n) dcol acol) (seq 1 5))))) (seq 0 (steps sv)))))))).
