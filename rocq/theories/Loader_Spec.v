(** * Specification for the dataset loaders. *)

From Coq Require Import String Ascii List ZArith QArith.
From Verif Require Import Prelude Subgroup_Model Subgroup_Spec Loader_Model.
Import ListNotations.
Local Open Scope string_scope.

(** ** Objects *)

Definition all_of {A : Type} (P : A -> Prop) : list A -> Prop := fix go l := match l with [] => True | x :: t => P x /\ go t end.

Definition string_keys (items : list (obj * obj)) (keys : list string) : Prop := map fst items = map (fun s => OPy (SStr s)) keys.

(** What json keeps as it is. *)
Fixpoint plain_json (o : obj) : Prop :=
  match o with
  | ONone | OPy _ => True
  | OList l => all_of plain_json l
  | ODict items => (exists keys, string_keys items keys /\ NoDup keys) /\ all_of (fun kv => match kv with (_, v) => plain_json v end) items
  | _ => False
  end.

(** What iterating over an array of floats, texts, integers or booleans, of any
    number of dimensions, yields. *)
Fixpoint cell (o : obj) : Prop :=
  match o with
  | OPy (SFloat _) | OPy (SStr _) | ONp (SInt _) | ONp (SBool _) => True
  | OArr l => all_of cell l
  | _ => False
  end.

(** Entries of a list that can become an array. *)
Fixpoint entry (o : obj) : Prop :=
  match o with
  | OPy _ | ONp (SInt _) | ONp (SBool _) => True
  | OArr l => all_of cell l
  | OList l => all_of entry l
  | _ => False
  end.

(** Nested dictionaries with distinct texts as keys, of numbers, texts, lists and
    arrays. *)
Fixpoint storable (o : obj) : Prop :=
  match o with
  | OPy _ => True
  | OList l => all_of entry l
  | OArr l => all_of cell l
  | ODict items => (exists keys, string_keys items keys /\ NoDup keys) /\ all_of (fun kv => match kv with (_, v) => storable v end) items
  | _ => False
  end.

(** No object of an unknown class inside. *)
Fixpoint known (o : obj) : Prop :=
  match o with
  | ONone | OPy _ | ONp _ => True
  | OList l | OArr l => all_of known l
  | ODict items => all_of (fun kv => match kv with (k, v) => known k /\ known v end) items
  | OOther => False
  end.

(** ** Loads *)

Definition target (r : request) : bool := match r with Switchons _ | Consumption _ | Duration _ => true | _ => false end.

(** Parsed data that a load can store. *)
Definition fits (r : request) (o : obj) : Prop :=
  (exists items, o = ODict items /\ (r = Appliances -> In (OPy (SStr "type")) (map fst items))) /\
  (if target r then plain_json o else storable o).

(** A list entry and the array cell with the same value. *)
Inductive holds : obj -> obj -> Prop :=
| h_py : forall x, holds (OPy x) (OPy x)
| h_number : forall x, holds (OPy x) (ONp x)
| h_np : forall x, holds (ONp x) (ONp x)
| h_array : forall l, holds (OArr l) (OArr l)
| h_list : forall l l', Forall2 holds l l' -> holds (OList l) (OArr l').

(** Lists become arrays in what is returned, except for the targets. *)
Inductive arrays_of : obj -> obj -> Prop :=
| ar_scalar : forall x, arrays_of (OPy x) (OPy x)
| ar_array : forall l, arrays_of (OArr l) (OArr l)
| ar_list : forall l l', Forall2 holds l l' -> all_of cell l' -> arrays_of (OList l) (OArr l')
| ar_dict : forall items items', Forall2 (fun kv kv' => fst kv = fst kv' /\ arrays_of (snd kv) (snd kv')) items items' -> arrays_of (ODict items) (ODict items').

Definition returned (r : request) (o out : obj) : Prop := if target r then out = o else arrays_of o out.

(** The same data are asked for. *)
Definition same_request (r r' : request) : Prop :=
  match r, r' with
  | Appliances, Appliances => True
  | Switchons a, Switchons b | Consumption a, Consumption b | Duration a, Duration b => same_numbers (remove_time_attributues a) (remove_time_attributues b)
  | Buildings a, Buildings b | HeatingSystem a, HeatingSystem b | Thermostat a, Thermostat b => same_numbers a b
  | _, _ => False
  end.

Definition plain_request (r : request) : Prop :=
  match r with Appliances => True | Switchons a | Consumption a | Duration a | Buildings a | HeatingSystem a | Thermostat a => plain a end.

Definition empty_disk : disk := mkDisk [] 0.

(** ** Real profiles *)

(** Neither separators nor repeated names, and no type without profile. *)
Definition clean_name (s : string) : Prop := ~ In "&"%char (list_ascii_of_string s).
Definition clean_profiles {A : Type} (d : profiles_dict A) : Prop :=
  NoDup (map fst d) /\ forall t ps, In (t, ps) d -> ps <> [] /\ clean_name t /\ NoDup (map fst ps) /\ forall n a, In (n, a) ps -> clean_name n.

(** ** Historical climate *)

(** Data points at regular times. *)
Definition regular {A : Type} (rows : list (Z * A)) (first step : Z) : Prop := forall i t a, nth_error rows i = Some (t, a) -> t = (first + Z.of_nat i * step)%Z.
