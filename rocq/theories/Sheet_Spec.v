(** * Specification of the dictionaries read from sheets. *)

From Coq Require Import String Ascii List ZArith QArith Bool Arith.
From Verif Require Import Prelude SpecBase Sheet_Model.
Import ListNotations.
Open Scope string_scope.

(** The second text is the first one without its spaces. *)
Inductive stripped : string -> string -> Prop :=
| St_nil : stripped "" ""
| St_drop : forall s t, stripped s t -> stripped (String " " s) t
| St_keep : forall c s t, c <> " "%char -> stripped s t -> stripped (String c s) (String c t).

Definition no_space (s : string) : Prop := forall a b, s <> a ++ String " " b.

Inductive cell_stripped : cell -> cell -> Prop :=
| Cs_text : forall s t, stripped s t -> cell_stripped (CText s) (CText t)
| Cs_num : forall q, cell_stripped (CNum q) (CNum q)
| Cs_bool : forall b, cell_stripped (CBool b) (CBool b)
| Cs_nan : cell_stripped CNan CNan.

Inductive heading_stripped : heading -> heading -> Prop :=
| Hs_text : forall s t, stripped s t -> heading_stripped (HText s) (HText t)
| Hs_num : forall z, heading_stripped (HNum z) (HNum z).

(** pandas calls columns without heading 'Unnamed: 3'. *)
Definition is_named (h : heading) : Prop := forall t, h <> HText ("Unnamed:" ++ t).

(** The cells of the last column whose heading without spaces is [k]. *)
Definition last_column (sh : sheet) (k : heading) (l : list cell) : Prop :=
  exists before h after, sh = List.app before ((h, l) :: after) /\ is_named h /\ heading_stripped h k /\
    forall h' l', In (h', l') after -> is_named h' -> ~ heading_stripped h' k.

(** All columns have the same number of rows. *)
Definition rows (sh : sheet) (n : nat) : Prop := forall h l, In (h, l) sh -> length l = n.

(** Cells and headings that are texts, numbers, truth values or empty. *)
Definition plain (sh : sheet) : Prop :=
  forall h l, In (h, l) sh -> is_named h -> h <> HOther /\ ~ In COther l.

(** The flag of a cell; of empty cells it is true. *)
Inductive flag_of : cell -> bool -> Prop :=
| Fl_zero : forall q, q == 0 -> flag_of (CNum q) false
| Fl_one : forall q, ~ q == 0 -> flag_of (CNum q) true
| Fl_bool : forall b, flag_of (CBool b) b
| Fl_empty : flag_of CNan true.

Definition no_text (l : list cell) : Prop := forall s, ~ In (CText s) l.

(** ** Thermostats *)

(** Temperatures in degrees with their shares in percent. *)
Definition rooms : list (Q * Q) :=
  [(13, 1); (14, 2); (15, 1); (16, 3); (17, 4); (18, 8); (19, 16); (20, 14); (21, 16); (22, 16); (23, 9); (24, 5); (25, 3); (26, 1); (27, 1)].
Definition waters : list (Q * Q) :=
  [(42, 4); (43, 4); (45, 11); (47, 8); (49, 13); (51, 9); (53, 14); (55, 11); (57, 8); (59, 10); (61, 4); (62, 4)].

(** The draw [u] falls in the share of the temperature [x]: the shares before it
    do not exceed [u], and with its own share they do. *)
Definition falls_in (table : list (Q * Q)) (u x : Q) : Prop :=
  exists before share after, table = List.app before ((x, share) :: after) /\
    (total (map snd before) <= 100 * u /\ 100 * u < total (map snd before) + share)%Q.
