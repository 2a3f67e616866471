(** * demod/helpers.py, lines 14-208: the helpers of the older simulators.

    The CSV sheet is its lines of numbers (columns 4 to 147), the saved profiles are given by a
    function of day type, activity and number of active occupants.  Arrays are lists. *)

From Coq Require Import String List ZArith QArith Bool Arith.
From Verif Require Import Prelude Appliance_Model.
Import ListNotations.

Open Scope Q_scope.

(** ** File names *)

(** Values of a subgroup: the branches of line 24 tell apart [True], empty values and others. *)
Inductive entry := Yes | Empty | Text (s : string).

(** Lines 14-24 [subgroup_file]. *)
Definition subgroup_file (folder : string) (pairs : list (string * entry)) : string :=
  String.concat "" (folder :: map (fun p => match snd p with Text s => fst p ++ "_" ++ s ++ "_" | _ => "" end)%string pairs).

(** ** Occupancy over 24 hours *)

(** Lines 28-46 [CREST_get_24h_occupancy]: [states] has a row of 144 state numbers per
    household, [labels] the labels of the states. *)
Definition occupancy24 (states : list (list Z)) (labels : list Z) : result (list bool) :=
  if negb (forallb (fun r => Nat.eqb (List.length r) 144) states) then Err AssertionError else
  mapM (fun r => bind (mapM (fun s => bind (py_index (List.length labels) s) (vget labels)) r) (fun ls =>
                 Ok (forallb (fun l => Z.ltb 0 (l / 10)) ls))) states.

(** ** Probabilities of the activities *)

Definition add_level (add : bool) (pdf : list (list (list Q))) : list (list (list Q)) :=
  if add then map (map (fun row => row ++ [1])) pdf else pdf.
Definition add_name (add : bool) (labels : list string) : list string := if add then labels ++ ["LEVEL"%string] else labels.

(** Lines 49-73 [CREST_read_activity_pdf]; [sheet] are the lines of the file, [names] the
    (upper case) names in lines 29 to 34.  Other shapes cannot be reshaped. *)
Definition crest_pdf (sheet : list (list Q)) (names : list string) (day : string) (add : bool) :
  result (list (list (list Q)) * list string) :=
  bind (if String.eqb day "d" then Ok 28%nat else if String.eqb day "e" then Ok (28 + 36)%nat else Err ValueError) (fun header =>
  let df := firstn 36 (skipn (S header) sheet) in
  if negb (Nat.eqb (List.length df) 36 && forallb (fun r => Nat.eqb (List.length r) 144) df) then Err ValueError else
  bind (mapM (fun t => mapM (fun i => mapM (fun r => vget r t) (firstn 6 (skipn (6 * i) df))) (seq 0 6)) (seq 0 144)) (fun pdf =>
  Ok (add_level add pdf, add_name add names))).

(** Lines 84 and 99: names of the activities, in upper case. *)
Definition gtou_labels : list string :=
  ["ACT_TV"; "ACT_COOKING"; "ACT_LAUNDRY"; "ACT_WASHDRESS"; "ACT_IRON"; "ACT_HOUSECLEAN"; "ACT_DISHWASHING"; "ACT_ELEC"]%string.

(** Lines 76-110 [GTOU_read_activity_pdf].  A profile of another length than 144 is rejected
    (lengths that are other multiples of 144 are rejected by a later reshape, unless they sum
    up). *)
Definition gtou_pdf (load : string -> string -> nat -> result (list Q)) (day : string) (add : bool) :
  result (list (list (list Q)) * list string) :=
  if negb (String.eqb day "d" || String.eqb day "e") then Err AssertionError else
  bind (mapM (fun act => mapM (fun n =>
          if Nat.eqb n 0 then Ok (repeat 0 144) else
          bind (load day act n) (fun p => if Nat.eqb (List.length p) 144 then Ok p else Err ValueError)) (seq 0 6)) gtou_labels) (fun profiles =>
  bind (mapM (fun t => mapM (fun n => mapM (fun of_act => bind (vget of_act n) (fun p => vget p t)) profiles) (seq 0 6)) (seq 0 144)) (fun pdf =>
  Ok (add_level add pdf, add_name add gtou_labels))).

(** Lines 115-126 [get_activity_probs_from_occupancy]. *)
Definition probs_of_occupancy (occ : list Z) (pdf : list (list Q)) : result (list (list Q)) :=
  mapM (fun o => bind (py_index (List.length pdf) o) (vget pdf)) occ.

(** Lines 128-156 [get_switchon_probs]; [apps] are the 'activation type' and 'switch-on probs'
    of the appliances.  One number of active occupants per household. *)
Fixpoint times_activities (labels : list string) (i : nat) (pdf : list Q) (types : list string) (row : list Q) : result (list Q) :=
  match labels with
  | [] => Ok row
  | act :: rest => bind (vget pdf i) (fun p =>
      times_activities rest (S i) pdf types (map2 (fun ty x => if String.eqb ty act then x * p else x) types row))
  end.
Definition switchon_probs (pdfs : list (list Q)) (labels : list string) (apps : list (string * Q)) (occ : list Z) : result (list (list Q)) :=
  if negb (Nat.eqb (List.length occ) (List.length pdfs)) then Err ValueError else
  mapM (fun x : list Q * Z =>
          bind (times_activities labels 0 (fst x) (map fst apps) (map (fun a => 1 * snd a) apps)) (fun row =>
          Ok (map2 (fun ty y => if String.eqb ty "ACTIVE_OCC" then y * b2q (Z.ltb 0 (snd x)) else y) (map fst apps) row)))
       (combine pdfs occ).

(** ** Absorbing states *)

Definition nonzero (x : Q) : bool := negb (Qeq_bool x 0).

(** [np.unique] of the two parts of [np.where(pdf)]. *)
Definition starts (pdf : list (list Q)) : list nat :=
  filter (fun i => match nth_error pdf i with Some r => existsb nonzero r | None => false end) (seq 0 (List.length pdf)).
Definition width (pdf : list (list Q)) : nat := match pdf with [] => O | r :: _ => List.length r end.
Definition ends (pdf : list (list Q)) : list nat :=
  filter (fun j => existsb (fun r => match nth_error r j with Some x => nonzero x | None => false end) pdf) (seq 0 (width pdf)).
Definition missing (l this : list nat) : list nat := filter (fun s => negb (existsb (Nat.eqb s) this)) l.
Fixpoint same (l m : list nat) : bool :=
  match l, m with [], [] => true | a :: l', b :: m' => Nat.eqb a b && same l' m' | _, _ => false end.

(** Lines 175-205: the loop; returns what is appended and the last [current_absorbing_states].
    The prints and the counters they show are not modelled. *)
Fixpoint scan (i : nat) (old cur : list nat) (pdfs : list (list (list Q))) : list (nat * list nat) * list nat :=
  match pdfs with
  | [] => ([], cur)
  | pdf :: rest =>
      let this := starts pdf in
      let cur1 := missing cur this in
      if same old this then scan (S i) (ends pdf) cur1 rest else
      let stuck := missing old this in
      let '(r, c) := scan (S i) (ends pdf) (cur1 ++ stuck) rest in ((i, stuck) :: r, c)
  end.
(** Lines 161-208 [prints_pdfs_absorbing_states]. *)
Definition absorbing_states (pdfs : list (list (list Q))) : result (list (nat * list nat)) :=
  match rev pdfs with
  | [] => Err IndexError
  | last :: _ => let '(r, c) := scan 0 (ends last) [] pdfs in Ok (r ++ [(List.length pdfs - 1, c)%nat])
  end.
