(** * Vocabulary for the statements about files kept by the loaders. *)

From Coq Require Import String Ascii List ZArith QArith Bool.
From Verif Require Import Prelude SpecBase Subgroup_Model Subgroup_Spec Loader_Model Loader_Spec Store_Model.
Import ListNotations.
Local Open Scope string_scope.

(** ** Saved arrays *)

(** Names without a suffix of numpy. *)
Definition bare (name : string) : Prop := forall p, name <> p ++ ".npy" /\ name <> p ++ ".npz".

(** ** Climate of a country *)

(** Names and codes of a country. *)
Definition spells (name code : string) : Prop :=
  (String.length name = 2%nat /\ code = name) \/ In (name, code) [("germany", "DE"); ("switzerland", "CH"); ("england", "GB")].
Definition spells_b (name code : string) : bool :=
  (Nat.eqb (String.length name) 2 && String.eqb name code) ||
  existsb (fun e => String.eqb name (fst e) && String.eqb code (snd e)) [("germany", "DE"); ("switzerland", "CH"); ("england", "GB")].

(** What was last downloaded for a country and weighting: a construction
    downloads when there is nothing yet or an update is wanted. *)
Definition newest {Raw : Type} (code weighting : string) (cs : list (ninja_call Raw)) : option Raw :=
  fold_left (fun old c =>
    match c with
    | Make name w update server =>
        if spells_b name code && String.eqb w weighting && (update || match old with None => true | Some _ => false end)
        then match server code weighting with Ok new => Some new | Err _ => old end
        else old
    | Climate _ _ => old
    end) cs None.

(** The name and weighting of a call. *)
Definition about {Raw : Type} (c : ninja_call Raw) : string * string := match c with Make n w _ _ => (n, w) | Climate n w => (n, w) end.
(** One spelling and one weighting for the country of [name]. *)
Definition one_spelling {Raw : Type} (name weighting : string) (cs : list (ninja_call Raw)) : Prop :=
  forall c n w code, In c cs -> about c = (n, w) -> spells name code -> spells n code -> n = name /\ w = weighting.
Definition made {Raw : Type} (name : string) (cs : list (ninja_call Raw)) : Prop := exists w u s, In (Make name w u s) cs.

(** ** FfE profiles *)

(** Rows that are reported: the total of the phases. *)
Definition reported (k : ffe_kind) (e : ffe_row) : Prop := match k with Electric => e_phase e = 0%Z | Thermal => True end.

(** A subsequence of exactly the elements with a property. *)
Inductive selected {A : Type} (P : A -> Prop) : list A -> list A -> Prop :=
| s_nil : selected P [] []
| s_take : forall x l m, P x -> selected P l m -> selected P (x :: l) (x :: m)
| s_skip : forall x l m, ~ P x -> selected P l m -> selected P (x :: l) m.

Definition unit_factor (k : ffe_kind) (watts : bool) : Q := match k, watts with Electric, true => 1000 | _, _ => 1 end.

(** [p] are the values of the rows times the factor. *)
Definition profiles_of (k : ffe_kind) (watts : bool) (rows : list ffe_row) (p : list (list Q)) : Prop :=
  Forall2 (fun row ys => Forall2 (fun x y => y == x * unit_factor k watts)%Q (e_values row) ys) rows p.

(** ** Measured profiles *)

(** Whether the zip file is there, and the archive last downloaded. *)
Definition latest {File : Type} (cs : list (trace_call File)) : bool * option (list (string * File)) :=
  fold_left (fun (st : bool * option (list (string * File))) c =>
    match c with
    | MakeTrace _ _ update _ server =>
        if Bool.eqb (fst st) update then match server with Ok new => (true, Some new) | Err _ => (false, snd st) end else st
    | Profile _ _ _ => st
    end) cs (false, None).

(** Profiles of a kind from an archive, averaged over the whole seconds. *)
Definition from_archive {File Data : Type} (averaged : list (string * File) -> Z -> result Data) (switched_on : Data -> result Data)
  (a : option (list (string * File))) (seconds : Z) (kind : string) : result Data :=
  if String.eqb kind "full" then match a with Some x => averaged x seconds | None => Err FileNotFoundError end
  else if String.eqb kind "switchedON" then match a with Some x => bind (averaged x seconds) switched_on | None => Err FileNotFoundError end
  else Err NotImplementedError.

(** Updates succeed and are made with one version and one number of seconds. *)
Definition updates_here {File : Type} (version : string) (step : Z) (cs : list (trace_call File)) : Prop :=
  forall v c s a, In (MakeTrace v c true s a) cs -> v = version /\ Z.quot s 1000000 = Z.quot step 1000000 /\ exists new, a = Ok new.
(** All archives hold files of the same names. *)
Definition same_files {File : Type} (cs : list (trace_call File)) : Prop :=
  exists names, NoDup names /\ forall v c u s new, In (MakeTrace v c u s (Ok new)) cs -> map fst new = names.
(** ** Remaining caches *)

(** Data that json can hold after the conversion of arrays and numpy numbers. *)
Fixpoint convertible (o : obj) : Prop :=
  match o with
  | ONone | OPy _ | ONp _ => True
  | OList l | OArr l => all_of convertible l
  | ODict items => (exists keys, string_keys items keys /\ NoDup keys) /\ all_of (fun kv => match kv with (_, v) => convertible v end) items
  | OOther => False
  end.

(** The same data with lists for arrays and Python numbers for numpy numbers. *)
Inductive lists_for : obj -> obj -> Prop :=
| lf_none : lists_for ONone ONone
| lf_py : forall x, lists_for (OPy x) (OPy x)
| lf_np : forall x, lists_for (ONp x) (OPy x)
| lf_list : forall l l', Forall2 lists_for l l' -> lists_for (OList l) (OList l')
| lf_array : forall l l', Forall2 lists_for l l' -> lists_for (OArr l) (OList l')
| lf_dict : forall items items', Forall2 (fun kv kv' => fst kv = fst kv' /\ lists_for (snd kv) (snd kv')) items items' -> lists_for (ODict items) (ODict items').

(** Data that a cache can hold. *)
Definition cacheable (k : kept) (a : answer) : Prop :=
  match k, a with
  | Population _, AObj o => plain_json o
  | (Arma | Geographic | Fisher | BulbStats _), AObj o => plain_json o
  | CrestLight, AObj o => storable o
  | Bulbs, AObj (ODict items) => (exists keys, string_keys items keys /\ NoDup keys) /\ forall k v, In (k, v) items -> (exists l, v = OList l \/ v = OArr l) /\ storable v
  | BulbsConfig _, AObj o => True
  | Ownership _, ADictionary _ => True
  | Clearness, AClear _ _ _ => True
  | _, _ => False
  end.

(** What a load returns for parsed data. *)
Definition gives (k : kept) (a out : answer) : Prop :=
  match k, a, out with
  | CrestLight, AObj o, AObj x => arrays_of o x
  | Bulbs, AObj (ODict items), AObj (ODict items') => Forall2 (fun kv kv' => fst kv = fst kv' /\ arrays_of (snd kv) (snd kv')) items items'
  | (CrestLight | Bulbs), _, _ => False
  | _, _, _ => out = a
  end.

(** The same data are asked for. *)
Definition same_kept (k k' : kept) : Prop :=
  match k, k' with
  | Population a, Population b => a = b
  | Arma, Arma | Geographic, Geographic | Fisher, Fisher | CrestLight, CrestLight | Bulbs, Bulbs | Clearness, Clearness => True
  | BulbStats a, BulbStats b | BulbsConfig a, BulbsConfig b => same_numbers a b
  | Ownership a, Ownership b => same_numbers (remove_time_attributues a) (remove_time_attributues b)
  | _, _ => False
  end.
Definition plain_kept (k : kept) : Prop :=
  match k with BulbStats a | BulbsConfig a | Ownership a => plain a | _ => True end.

(** The files of some data, and their absence. *)
Definition paths (k : kept) : list string := match k with Clearness => [kept_path Clearness; clearness_labels_path; clearness_step_path] | _ => [kept_path k] end.
Definition absent (k : kept) (d : cache) : Prop := forall p, In p (paths k) -> dget String.eqb d p = None.
