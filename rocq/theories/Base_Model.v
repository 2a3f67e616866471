(** * Model of SimLogger, cached_getter and Simulator
      (demod/simulators/base_simulators.py:16-532). *)

From Coq Require Import String List ZArith QArith Bool.
From Verif Require Import Prelude.
Import ListNotations.

Set Implicit Arguments.

(** ** Observable values

    What an attribute or getter of a simulator evaluates to: an array with one
    entry per household, a number, a datetime, or a dictionary of those.
    Arrays with more than one dimension are not represented. *)
Inductive simple : Type :=
| SArr (l : list Q)
| SNum (q : Q)
| STime (t : Z).

Inductive value : Type :=
| VS (s : simple)
| VD (d : list (string * simple)).

(** [np.sum] of a value, base_simulators.py:237-242 (per key for dictionaries;
    numbers and datetimes are their own sum). *)
Definition aggregate_simple (s : simple) : simple :=
  match s with
  | SArr l => SNum (qsum l)
  | SNum q => SNum q
  | STime t => STime t
  end.

Definition aggregate (v : value) : value :=
  match v with
  | VS s => VS (aggregate_simple s)
  | VD d => VD (map (fun kv => (fst kv, aggregate_simple (snd kv))) d)
  end.

(** ** SimLogger, base_simulators.py:39-260 *)

(** Content of [dic_results[attr]]: a list, or a dictionary of lists once a
    dictionary has been logged (lines 248-257). *)
Inductive cell : Type :=
| CList (l : list simple)
| CDict (d : list (string * list simple)).

Record logger : Type := mkLogger {
  attrs : list string;
  aggregated : list bool;
  store : list (string * cell);
  log_len : nat
}.

(** The [aggregated] argument of the constructor: a list, a bool, or anything else. *)
Inductive agg_arg := AggList (l : list bool) | AggBool (b : bool) | AggOther.

(** The [_protected] names, line 54. *)
Definition protected (a : string) : bool := String.eqb a "current_time".

(** [for att in attributes_list: dic_results[att] = []], lines 97-100 and 195-197. *)
Definition clear_all (l : list string) (d : list (string * cell)) : list (string * cell) :=
  fold_left (fun d a => dset String.eqb d a (CList [])) l d.

(** SimLogger.__init__, lines 57-102; the attributes are given as a list (the
    [str, *args] form builds the same list, line 79). *)
Definition logger_init (l : list string) (agg : agg_arg) : result logger :=
  match agg with
  | AggList b =>
      if Nat.eqb (length b) (length l)
      then Ok (mkLogger l b (clear_all l []) 0)
      else Err ValueError
  | AggBool b =>
      Ok (mkLogger l (map (fun a => if protected a then false else b) l) (clear_all l []) 0)
  | AggOther => Err TypeError
  end.

(** SimLogger.__add__, lines 104-135: dict.update, list += for the two lists; the
    length is the one of the left operand. *)
Definition dict_update (d e : list (string * cell)) : list (string * cell) :=
  fold_left (fun d kv => dset String.eqb d (fst kv) (snd kv)) e d.

Definition logger_add (x y : logger) : result logger :=
  if Nat.eqb (log_len x) (log_len y)
  then Ok (mkLogger (attrs x ++ attrs y) (aggregated x ++ aggregated y)
             (dict_update (store x) (store y)) (log_len x))
  else Err ValueError.

Definition in_attrs (x : logger) (a : string) : bool := existsb (String.eqb a) (attrs x).

(** Drop the last record, lines 166-171 ([:-1]). *)
Definition drop_last (c : cell) : cell :=
  match c with
  | CList l => CList (removelast l)
  | CDict d => CDict (map (fun kv => (fst kv, removelast (snd kv))) d)
  end.

(** SimLogger.get, lines 137-173. *)
Definition logger_get (x : logger) (a : option string) : result cell :=
  bind (match a with
        | Some a => Ok a
        | None => match attrs x with [a] => Ok a | _ => Err ValueError end
        end) (fun a =>
  if in_attrs x a
  then match dget String.eqb (store x) a with
       | Some c => Ok (drop_last c)
       | None => Err KeyError
       end
  else Err ValueError).

(** The argument of SimLogger.clear: one attribute, a list of them, or None. *)
Inductive clear_arg := ClearAll | ClearOne (a : string) | ClearList (l : list string).

(** SimLogger.clear, lines 175-201, for a single attribute. *)
Definition clear_one (x : logger) (a : string) : result logger :=
  if in_attrs x a
  then Ok (mkLogger (attrs x) (aggregated x) (dset String.eqb (store x) a (CList [])) 0)
  else Err ValueError.

Fixpoint clear_seq (x : logger) (l : list string) : result logger :=
  match l with
  | [] => Ok (mkLogger (attrs x) (aggregated x) (store x) 0)
  | a :: t => bind (clear_one x a) (fun y => clear_seq y t)
  end.

Definition logger_clear (x : logger) (c : clear_arg) : result logger :=
  match c with
  | ClearAll => Ok (mkLogger (attrs x) (aggregated x) (clear_all (attrs x) (store x)) 0)
  | ClearOne a => clear_one x a
  | ClearList l => clear_seq x l
  end.

(** SimLogger.copy, lines 203-214. *)
Definition logger_copy (x : logger) : result logger :=
  bind (logger_init (attrs x) (AggList (aggregated x))) (fun y =>
  Ok (mkLogger (attrs y) (aggregated y) (store y) (log_len x))).

(** One attribute of SimLogger.visit_simulator, lines 244-258.  The protected
    attribute is treated like the others (its values are datetimes, never
    dictionaries). *)
Fixpoint append_all (cur : list (string * list simple)) (d : list (string * simple))
  : result (list (string * list simple)) :=
  match d with
  | [] => Ok cur
  | (k, s) :: t =>
      match dget String.eqb cur k with
      | None => Err KeyError
      | Some l => append_all (dset String.eqb cur k (l ++ [s])) t
      end
  end.

Definition cell_append (c : cell) (v : value) : result cell :=
  match v with
  | VS s => match c with
            | CList l => Ok (CList (l ++ [s]))
            | CDict _ => Err AttributeError      (* a dict has no append *)
            end
  | VD e =>
      let cur := match c with
                 | CDict x => x
                 | CList _ => map (fun kv => (fst kv, [])) e
                 end in
      bind (append_all cur e) (fun x => Ok (CDict x))
  end.

Definition record_value (d : list (string * cell)) (a : string) (v : value)
  : result (list (string * cell)) :=
  match dget String.eqb d a with
  | None => Err KeyError
  | Some c => bind (cell_append c v) (fun c' => Ok (dset String.eqb d a c'))
  end.

(** ** Simulator, base_simulators.py:263-532

    A concrete simulator is given by: the state [S] of the subclass, the part of
    its step method executed before the call of [super().step()] ([pre]), the part
    executed after it ([post]), its undecorated getters and attributes ([raw]),
    and which getters carry the cached_getter decorator ([is_cached]).  Each of
    them may raise. *)
Section Simulator.
  Variables (S A : Type).
  Variable pre : A -> nat -> S -> result S.
  Variable post : A -> nat -> S -> result S.
  Variable raw : S -> nat -> string -> result value.
  Variable is_cached : string -> bool.

  Record sim : Type := mkSim {
    st : S;
    ctr : nat;                              (* current_time_step *)
    cache : list (string * value);          (* _cache *)
    lg : option logger
  }.

  (** Calling a getter: cached_getter, lines 16-36.  A getter calling other cached
      getters fills their entries as well; here only its own entry is filled. *)
  Definition call (x : sim) (name : string) : result (value * sim) :=
    if is_cached name then
      match dget String.eqb (cache x) name with
      | Some v => Ok (v, x)
      | None =>
          bind (raw (st x) (ctr x) name) (fun v =>
          Ok (v, mkSim (st x) (ctr x) (dset String.eqb (cache x) name v) (lg x)))
      end
    else bind (raw (st x) (ctr x) name) (fun v => Ok (v, x)).

  (** Indexing with [n_ieth_hh], lines 31-34. *)
  Definition pick (i : option nat) (v : value) : result value :=
    match i with
    | None => Ok v
    | Some i =>
        match v with
        | VS (SArr l) => match nth_error l i with Some q => Ok (VS (SNum q)) | None => Err IndexError end
        | VS _ => Err TypeError
        | VD _ => Err KeyError
        end
    end.

  (** SimLogger.visit_simulator, lines 216-260: [zip(attributes_list, aggregated)]. *)
  Fixpoint visit_attrs (l : list (string * bool)) (x : sim) (d : list (string * cell))
    : result (sim * list (string * cell)) :=
    match l with
    | [] => Ok (x, d)
    | (a, g) :: t =>
        bind (call x a) (fun vx =>
        bind (record_value d a (if g then aggregate (fst vx) else fst vx)) (fun d' =>
        visit_attrs t (snd vx) d'))
    end.

  Definition visit (x : sim) : result sim :=
    match lg x with
    | None => Ok x
    | Some l =>
        bind (visit_attrs (combine (attrs l) (aggregated l)) x (store l)) (fun r =>
        Ok (mkSim (st (fst r)) (ctr (fst r)) (cache (fst r))
              (Some (mkLogger (attrs l) (aggregated l) (snd r) (Datatypes.S (log_len l))))))
    end.

  (** A step of the subclass around Simulator.step, lines 520-532. *)
  Definition step (a : A) (x : sim) : result sim :=
    bind (pre a (ctr x) (st x)) (fun s1 =>
    bind (visit (mkSim s1 (Datatypes.S (ctr x)) [] (lg x))) (fun x2 =>
    bind (post a (ctr x2) (st x2)) (fun s2 =>
    Ok (mkSim s2 (ctr x2) (cache x2) (lg x2))))).

  Fixpoint run (args : list A) (x : sim) : result sim :=
    match args with
    | [] => Ok x
    | a :: t => bind (step a x) (run t)
    end.

  (** The [start_time_step] argument: a Python int or anything else. *)
  Inductive start_arg := StartInt (z : Z) | StartOther.

  (** Simulator.initialize_starting_state, lines 486-517: the same arguments are
      passed to every initialization step. *)
  Definition initialize (start : start_arg) (a : A) (x : sim) : result sim :=
    match start with
    | StartOther => Err TypeError
    | StartInt z =>
        if Z.ltb z 0 then Err ValueError
        else
          bind (run (repeat a (Z.to_nat z)) (mkSim (st x) 0 (cache x) (lg x))) (fun y =>
          match lg y with
          | None => Ok y
          | Some l =>
              bind (logger_clear l ClearAll) (fun l' =>
              visit (mkSim (st y) (ctr y) (cache y) (Some l')))
          end)
    end.

  (** A client of the simulator: getter calls and steps in any order. *)
  Inductive op := OGet (name : string) (i : option nat) | OStep (a : A).

  Fixpoint exec (ops : list op) (x : sim) : result (list value * sim) :=
    match ops with
    | [] => Ok ([], x)
    | OGet n i :: t =>
        bind (call x n) (fun vx =>
        bind (pick i (fst vx)) (fun v =>
        bind (exec t (snd vx)) (fun r => Ok (v :: fst r, snd r))))
    | OStep a :: t => bind (step a x) (exec t)
    end.
End Simulator.

(** Simulator.__init__, lines 448-484: [n_households] castable to an integer or
    not; the logger is copied. *)
Definition simulator_check (n : option Z) : result nat :=
  match n with
  | None => Err TypeError
  | Some z => if Z.leb z 0 then Err ValueError else Ok (Z.to_nat z)
  end.

(** ExampleSimulator.step, base_simulators.py:1060-1070: everything happens before
    [super().step()]; arrays of another length cannot be broadcast (arrays of one
    value can, which is not modelled). *)
Definition example_pre (a : list Q * list Q) (_ : nat) (occ : list Q) : result (list Q) :=
  if Nat.eqb (length (fst a)) (length occ) && Nat.eqb (length (snd a)) (length occ)
  then Ok (map2 Qminus (map2 Qplus occ (fst a)) (snd a))
  else Err ValueError.

Definition no_post {S A} (_ : A) (_ : nat) (s : S) : result S := Ok s.

(** Attributes of ExampleSimulator that can be logged: [occupants] and
    [current_time_step]; anything else raises AttributeError. *)
Definition example_raw (occ : list Q) (c : nat) (name : string) : result value :=
  if String.eqb name "occupants" then Ok (VS (SArr occ))
  else if String.eqb name "current_time_step" then Ok (VS (SNum (inject_Z (Z.of_nat c))))
  else Err AttributeError.
