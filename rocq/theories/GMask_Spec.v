(** * Specification of the choice of diaries.

    Says which diaries a question is about, in terms of the rows of the tables,
    their numbers and the codes asked for. *)

From Coq Require Import String List ZArith QArith Bool.
From Verif Require Import Prelude SpecBase GMask_Model.
Import ListNotations.

(** ** Rows that belong together *)

Definition lives_in (t : tables) (r : record) (h : household) : Prop := In h (t_households t) /\ h_id h = r_hh r.
Definition written_by (t : tables) (r : record) (p : person) : Prop := In p (t_persons t) /\ p_id p = r_pers r.

(** The ids of households are 1, 2, ...; the ids of persons differ; every diary has a
    household and a person, every household a diary and a person. *)
Definition well_formed (t : tables) : Prop :=
  (forall i h, at_ (t_households t) i h -> h_id h = Z.of_nat (S i)) /\
  NoDup (map p_id (t_persons t)) /\
  (forall r, In r (t_records t) -> (exists h, lives_in t r h) /\ (exists p, written_by t r p)) /\
  (forall h, In h (t_households t) -> (exists r, In r (t_records t) /\ r_hh r = h_id h) /\ (exists p, In p (t_persons t) /\ p_hh p = h_id h)).

(** The largest number of a person with a diary is the size of the household. *)
Definition fully_recorded (t : tables) (h : household) : Prop :=
  (exists r, In r (t_records t) /\ r_hh r = h_id h /\ r_number r = h_size h) /\
  (forall r, In r (t_records t) -> r_hh r = h_id h -> (r_number r <= h_size h)%Z).

(** Some member of the household of the diary reports that this day is missing. *)
Definition day_missing (t : tables) (r : record) : Prop :=
  exists f, In f (t_records t) /\ r_missing f <> 0%Z /\ r_hh f = r_hh r /\ r_missing f = r_day r.

(** The diaries that report a missing day come in pairs, reporting the same. *)
Definition paired (t : tables) : Prop :=
  exists pairs, filter (fun r => negb (Z.eqb (r_missing r) 0)) (t_records t) = concat (map (fun ab => [fst ab; snd ab]) pairs) /\
    forall a b, In (a, b) pairs -> r_hh a = r_hh b /\ r_missing a = r_missing b.

(** ** What is asked for *)

Definition wants (x : option Z) (v : Z) : Prop := match x with None => True | Some z => z = 0%Z \/ v = z end.
Definition wants_one (c : choice) (v : Z) : Prop :=
  match c with CNone => True | CInt z => z = 0%Z \/ v = z | CList l => l = [] \/ exists z, In z l /\ (z = 0%Z \/ v = z) | CDict => False end.
Definition wants_range (g : range) (x : Q) : Prop :=
  match g with RPair a b => (a <= x)%Q /\ (x < b)%Q | _ => True end.

Definition work_codes : list (string * Z) :=
  [("1_fulltime", 2); ("1_halftime", 3); ("2_fulltime", 4); ("1_fulltime_1_halftime", 5); ("3_fulltime", 6); ("other", 7)]%Z%string.

Definition wants_work (t : tables) (w : option string) (h : household) (p : person) : Prop :=
  match w with
  | None => True
  | Some w => w = ""%string \/ In (w, h_work h) work_codes \/
      w = "1_retired"%string /\ h_size h = 1%Z /\ p_life p = 8%Z \/
      w = "2_retired"%string /\ h_size h = 2%Z /\ (forall p, In p (t_persons t) -> p_hh p = h_id h -> p_life p = 8%Z)
  end.

Definition members_age (t : tables) (h : household) (x : Q) : Prop :=
  let ages := map p_age (filter (fun p => Z.eqb (p_hh p) (h_id h)) (t_persons t)) in
  (x * inject_Z (Z.of_nat (length ages)) == inject_Z (total_Z ages))%Q.

(** The diary [r] of person [p] in household [h] satisfies the question. *)
Definition satisfies (t : tables) (q : query) (r : record) (h : household) (p : person) : Prop :=
  (q_full q = true -> fully_recorded t h) /\
  (q_remove q = true -> ~ day_missing t r) /\
  (q_same q = true -> r_same r = 1%Z \/ h_size h = 1%Z) /\
  wants (q_quarter q) (r_quarter r) /\
  wants_one (q_weekday q) (r_weekday r) /\
  wants_one (q_residents q) (h_size h) /\
  wants_work t (q_work q) h p /\
  wants (q_type q) (h_type h) /\
  wants_one (q_life q) (p_life p) /\
  wants (q_salary q) (p_salary p) /\
  wants (q_revenue q) (h_revenue h) /\
  wants (q_position q) (p_position p) /\
  wants_range (q_age q) (inject_Z (p_age p)) /\
  (forall x, members_age t h x -> wants_range (q_mean_age q) x) /\
  wants (q_country q) (p_country p) /\
  wants (q_gender q) (p_gender p).

(** ** Correct questions *)

Definition bad_code (x : option Z) (most : Z) : Prop := exists z, x = Some z /\ ~ (0 <= z <= most)%Z.
Definition bad_choice (c : choice) (most : Z) : Prop :=
  (exists z, c = CInt z /\ ~ (0 <= z <= most)%Z) \/ (exists l z, c = CList l /\ In z l /\ ~ (0 <= z <= most)%Z).
Definition bad_range (g : range) : Prop :=
  (exists x, g = RNumber x /\ ~ (x == 0)%Q) \/ (exists a b, g = RPair a b /\ (b < a)%Q).

Definition known_work (w : string) : Prop :=
  w = ""%string \/ In w (map fst work_codes) \/ w = "1_retired"%string \/ w = "2_retired"%string.

(** The errors that a question justifies. *)
Inductive problem (q : query) : py_error -> Prop :=
| bad_number : (bad_code (q_quarter q) 4 \/ bad_choice (q_weekday q) 7 \/ bad_choice (q_residents q) 6 \/ bad_code (q_type q) 5 \/
    bad_choice (q_life q) 11 \/ bad_code (q_salary q) 5 \/ bad_code (q_revenue q) 5 \/ bad_code (q_position q) 9 \/
    bad_code (q_country q) 2 \/ bad_code (q_gender q) 2) -> problem q AssertionError
| bad_interval : bad_range (q_age q) \/ bad_range (q_mean_age q) -> problem q AssertionError
| bad_work : (exists w, q_work q = Some w /\ ~ known_work w) -> problem q ValueError
| bad_dict : q_weekday q = CDict \/ q_residents q = CDict -> problem q TypeError
| bad_life_dict : q_life q = CDict -> problem q NotImplementedError.

(** The table of persons lists two persons for every household of two. *)
Definition couples_listed (t : tables) : Prop :=
  forall h, In h (t_households t) -> h_size h = 2%Z -> length (filter (fun p => Z.eqb (p_hh p) (h_id h)) (t_persons t)) = 2%nat.

(** The function calls itself: lists, and the single retired person. *)
Definition calls_itself (q : query) : Prop :=
  (exists l, l <> [] /\ (q_weekday q = CList l \/ q_residents q = CList l \/ q_life q = CList l)) \/ q_work q = Some "1_retired"%string.

Definition default_flags (q : query) : Prop := q_full q = true /\ q_remove q = true /\ q_same q = true.

(** The conditions under which a question is answered as meant. *)
Definition answerable (t : tables) (q : query) : Prop :=
  well_formed t /\
  (q_remove q = true -> paired t) /\
  (q_work q = Some "2_retired"%string -> couples_listed t) /\
  (calls_itself q -> default_flags q).

(** ** The mask *)

(** The mask [m] marks exactly the diaries that satisfy [P]. *)
Definition marks (t : tables) (m : list bool) (P : record -> household -> person -> Prop) : Prop :=
  length m = length (t_records t) /\
  forall i r h p, at_ (t_records t) i r -> lives_in t r h -> written_by t r p -> (at_ m i true <-> P r h p).

(** ** Questions that differ in one argument *)

Definition with_weekday (c : choice) (q : query) : query :=
  mkQuery (q_full q) (q_remove q) (q_same q) (q_quarter q) c (q_residents q) (q_type q) (q_salary q) (q_revenue q) (q_work q) (q_family q)
    (q_life q) (q_mean_age q) (q_age q) (q_country q) (q_gender q) (q_position q) (q_travelling q).
Definition with_residents (c : choice) (q : query) : query :=
  mkQuery (q_full q) (q_remove q) (q_same q) (q_quarter q) (q_weekday q) c (q_type q) (q_salary q) (q_revenue q) (q_work q) (q_family q)
    (q_life q) (q_mean_age q) (q_age q) (q_country q) (q_gender q) (q_position q) (q_travelling q).
Definition with_life (c : choice) (q : query) : query :=
  mkQuery (q_full q) (q_remove q) (q_same q) (q_quarter q) (q_weekday q) (q_residents q) (q_type q) (q_salary q) (q_revenue q) (q_work q) (q_family q)
    c (q_mean_age q) (q_age q) (q_country q) (q_gender q) (q_position q) (q_travelling q).
Definition with_unused (f : option Z) (b : option bool) (q : query) : query :=
  mkQuery (q_full q) (q_remove q) (q_same q) (q_quarter q) (q_weekday q) (q_residents q) (q_type q) (q_salary q) (q_revenue q) (q_work q) f
    (q_life q) (q_mean_age q) (q_age q) (q_country q) (q_gender q) (q_position q) b.
Definition with_flags (a b c : bool) (q : query) : query :=
  mkQuery a b c (q_quarter q) (q_weekday q) (q_residents q) (q_type q) (q_salary q) (q_revenue q) (q_work q) (q_family q)
    (q_life q) (q_mean_age q) (q_age q) (q_country q) (q_gender q) (q_position q) (q_travelling q).
Definition no_question : query :=
  mkQuery true true true None CNone CNone None None None None None CNone RNone RNone None None None None.
