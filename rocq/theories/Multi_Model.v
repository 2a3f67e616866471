(** * Model of MultiSimulator (demod/simulators/base_simulators.py:545-675). *)

From Coq Require Import String List ZArith QArith Bool Arith.
From Verif Require Import Prelude.
Import ListNotations.

Set Implicit Arguments.

(** A sub-simulator type is given by its state [S], its step method taking
    per-household arrays, its number of households, its get_ methods and its
    subgroup dictionary (keys are strings, values compared with [veqb]). *)
Section Multi.
  Variables (S X Y V : Type).
  Variable sub_step : list (list X) -> S -> result S.
  Variable nhh : S -> nat.
  Variable getter : string -> S -> result (list Y).
  Variable subgroup : S -> list (string * V).
  Variable veqb : V -> V -> bool.

  Record multi : Type := mkMulti {
    subs : list S;
    mctr : nat;
    mcache : list (string * list Y)
  }.

  (** Number of households, line 577. *)
  Definition multi_n (l : list S) : nat := fold_right (fun s n => (nhh s + n)%nat) 0%nat l.

  (** MultiSimulator.__init__, lines 561-590 (the base constructor rejects a total
      of zero households); the logger and n_residents are not represented here. *)
  Definition multi_init (l : list S) : result multi :=
    if Nat.eqb (multi_n l) 0 then Err ValueError else Ok (mkMulti l 0 []).

  (** [arg[hh_offset:hh_offset+sim.n_households]], lines 607-609. *)
  Definition slice (off n : nat) (arg : list X) : list X := firstn n (skipn off arg).

  (** The loop of MultiSimulator.step, lines 601-613; positional and keyword
      arguments are sliced alike and form the list [args]. *)
  Fixpoint step_subs (off : nat) (args : list (list X)) (l : list S) : result (list S) :=
    match l with
    | [] => Ok []
    | s :: t =>
        bind (sub_step (map (slice off (nhh s)) args) s) (fun s' =>
        bind (step_subs (off + nhh s') args t) (fun t' => Ok (s' :: t')))
    end.

  (** MultiSimulator.step, lines 592-615: the base step increments the counter and
      clears the cache. *)
  Definition multi_step (args : list (list X)) (m : multi) : result multi :=
    bind (step_subs 0 args (subs m)) (fun l => Ok (mkMulti l (Datatypes.S (mctr m)) [])).

  Fixpoint multi_run (hist : list (list (list X))) (m : multi) : result multi :=
    match hist with
    | [] => Ok m
    | args :: t => bind (multi_step args m) (multi_run t)
    end.

  (** The getters made by _create_multi_getter, lines 627-650. *)
  Definition multi_get (name : string) (m : multi) : result (list Y * multi) :=
    match dget String.eqb (mcache m) name with
    | Some v => Ok (v, m)
    | None =>
        bind (mapM (getter name) (subs m)) (fun vs =>
        Ok (concat vs, mkMulti (subs m) (mctr m) (dset String.eqb (mcache m) name (concat vs))))
    end.

  Definition multi_get_i (name : string) (i : nat) (m : multi) : result (Y * multi) :=
    bind (multi_get name m) (fun r =>
    match nth_error (fst r) i with Some y => Ok (y, snd r) | None => Err IndexError end).

  (** get_mask_subgroup, lines 652-675. *)
  Definition is_subgroup (req : list (string * V)) (s : S) : bool :=
    forallb (fun kv => match dget String.eqb (subgroup s) (fst kv) with
                       | Some v => veqb v (snd kv)
                       | None => false
                       end) req.

  Definition get_mask_subgroup (req : list (string * V)) (m : multi) : list bool :=
    concat (map (fun s => repeat (is_subgroup req s) (nhh s)) (subs m)).
End Multi.
