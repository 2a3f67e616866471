(** * Simulators of subgroups (demod/simulators/sparse_simulators.py 319-376, 623-681). *)

From Coq Require Import String List ZArith Bool Arith.
From Verif Require Import Prelude Multi_Model.
Import ListNotations.
Local Open Scope Z_scope.

Set Implicit Arguments.

(** ** SubgroupsActivitySimulator *)

Section Groups.
  (** [S] are the subsimulators, [G] the subgroups. *)
  Variables (S G Y : Type).
  Variable nhh : S -> nat.

  (** The argument subsimulator: a subclass of SparseStatesSimulator (a function that
      creates an object), an object of it, another class, or anything else.  The last
      is a TypeError of issubclass. *)
  Inductive sub_arg := SparseClass (create : Z -> G -> result S) | SparseObject | OtherClass | NoClass.

  (** The call subsimulator(n_hh, subgroup_kwargs, ...); an object is not callable. *)
  Definition call_sub (a : sub_arg) (n : Z) (g : G) : result S :=
    match a with
    | SparseClass create => create n g
    | _ => Err TypeError
    end.

  (** __init__, lines 623-667.  [zip] stops at the shorter list.  The base class reads
      the first simulator; without simulators the total of zero households is refused
      before. *)
  Definition groups_init (a : sub_arg) (groups : list G) (numbers : list Z) : result (multi S Y) :=
    match a with
    | OtherClass | NoClass => Err TypeError
    | _ =>
        bind (mapM (fun gn => call_sub a (snd gn) (fst gn)) (filter (fun gn => 0 <? snd gn) (combine groups numbers))) (fun sims =>
        multi_init Y nhh sims)
    end.

  (** get_n_doing_state, lines 669-681: a list, a state given by an int or a str, or
      something else. *)
  Variable doing : string + Z -> S -> result (list Y).

  Inductive which := One (s : string + Z) | Many (l : list which) | Neither.
  Inductive answer := Numbers (l : list Y) | Answers (l : list answer).

  Definition one_doing (s : string + Z) (sims : list S) : result (list Y) :=
    bind (mapM (doing s) sims) (fun l => Ok (List.concat l)).

  Fixpoint n_doing (sims : list S) (w : which) : result answer :=
    match w with
    | One s => bind (one_doing s sims) (fun l => Ok (Numbers l))
    | Many ws => bind ((fix go (ws : list which) := match ws with [] => Ok [] | x :: t => bind (n_doing sims x) (fun y => bind (go t) (fun ys => Ok (y :: ys))) end) ws)
                   (fun l => Ok (Answers l))
    | Neither => Err TypeError
    end.
End Groups.

(** ** SparseActivitySimulator *)

(** The argument subgroup_kwargs: a str, or something else (a dictionary). *)
Inductive kwargs_arg := KwStr (s : string) | KwOther.

(** __init__, lines 319-357.  The path of the data is a str; [files] loads the four
    files of a path.  A str has no method copy. *)
Definition sparse_activity_init {D} (files : string -> result D) (path : string) (kwargs : kwargs_arg) (data : string) : result D :=
  if String.eqb data "Germany" then
    match kwargs with
    | KwOther => Err TypeError
    | KwStr s => bind (files (path ++ s)%string) (fun _ => Err AttributeError)
    end
  else Err ValueError.
