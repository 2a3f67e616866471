(** * Model of SparseTPM (demod/utils/sparse.py).

    Indices are integers, probabilities exact rationals.  Random numbers are
    arguments.  Warnings are not represented. *)

From Coq Require Import List ZArith QArith Bool Arith.
From Verif Require Import Prelude.
Import ListNotations.

Set Implicit Arguments.

(** Cast to np.uint16. *)
Definition u16 (x : Z) : Z := (x mod 65536)%Z.

(** The attributes set by SparseTPM.__init__, lines 78-101. *)
Record tpm : Type := mkTpm {
  t_times : list Z;
  t_from : list Z;
  t_to : list Z;
  t_values : list Q;
  n_states : Z;
  n_times : Z;
  dead_state : option Z
}.

Fixpoint zmax (d : Z) (l : list Z) : Z :=
  match l with [] => d | x :: t => Z.max x (zmax d t) end.

Definition list_max_Z (l : list Z) : Z := match l with [] => 0%Z | x :: t => zmax x t end.

(** The length test of lines 73-76, with Python's precedence: [&] binds tighter than
    [==], so it reads [length == (len(inds_from) & length) == (len(inds_to) & length) == len(values)]. *)
Definition lengths_accepted (nt nf nto nv : Z) : bool :=
  (nt =? Z.land nf nt)%Z && (Z.land nf nt =? Z.land nto nt)%Z && (Z.land nto nt =? nv)%Z.

(** __init__, lines 44-101. *)
Definition sp_init (times from to : list Z) (values : list Q)
    (ns nt : option Z) (dead : option Z) : result tpm :=
  let len l := Z.of_nat (length l) in
  if lengths_accepted (len times) (len from) (len to) (Z.of_nat (length values)) then
    let ns := match times with [] => Some 0%Z | _ => ns end in
    let nt := match times with [] => Some 0%Z | _ => nt end in
    let ns := match ns with Some n => n | None => (Z.max (list_max_Z from) (list_max_Z to) + 1)%Z end in
    let nt := match nt with Some n => n | None => (list_max_Z times + 1)%Z end in
    Ok (mkTpm (map u16 times) (map u16 from) (map u16 to) values ns nt dead)
  else Err ValueError.

(** A stored transition. *)
Record entry : Type := mkE { e_time : Z; e_from : Z; e_to : Z; e_val : Q }.

Fixpoint zip4 (ts fs us : list Z) (vs : list Q) : list entry :=
  match ts, fs, us, vs with
  | t :: ts, f :: fs, u :: us, v :: vs => mkE t f u v :: zip4 ts fs us vs
  | _, _, _, _ => []
  end.

(** The columns read together; boolean masks need equal lengths (IndexError). *)
Definition entries (p : tpm) : result (list entry) :=
  if (length (t_from p) =? length (t_times p))%nat && (length (t_to p) =? length (t_times p))%nat
     && (length (t_values p) =? length (t_times p))%nat
  then Ok (zip4 (t_times p) (t_from p) (t_to p) (t_values p))
  else Err IndexError.

Definition with_entries (p : tpm) (es : list entry) : tpm :=
  mkTpm (map e_time es) (map e_from es) (map e_to es) (map e_val es) (n_states p) (n_times p) (dead_state p).

(** _check_int_time_value, lines 123-124. *)
Definition check_time (p : tpm) (t : Z) : result Z :=
  if (n_times p =? 0)%Z then Err ZeroDivisionError else Ok (t mod n_times p)%Z.

Definition set_nth {A} (l : list A) (i : nat) (v : A) : list A :=
  firstn i l ++ match skipn i l with [] => [] | _ :: t => v :: t end.

(** [m[i, j] = v] on a two dimensional array. *)
Definition mat_set (m : list (list Q)) (i j : Z) (v : Q) : result (list (list Q)) :=
  match nth_error m (Z.to_nat i) with
  | None => Err IndexError
  | Some row =>
      if (Z.to_nat j <? length row)%nat then Ok (set_nth m (Z.to_nat i) (set_nth row (Z.to_nat j) v))
      else Err IndexError
  end.

Fixpoint mat_assign (m : list (list Q)) (es : list entry) : result (list (list Q)) :=
  match es with
  | [] => Ok m
  | e :: t => bind (mat_set m (e_from e) (e_to e) (e_val e)) (fun m' => mat_assign m' t)
  end.

(** A key is an int, or something else. *)
Inductive key := KInt (z : Z) | KOther.

(** __getitem__, lines 103-121. *)
Definition sp_get (p : tpm) (k : key) : result (list (list Q)) :=
  match k with
  | KOther => Err TypeError
  | KInt z =>
      bind (check_time p z) (fun t =>
      bind (entries p) (fun es =>
      let n := Z.to_nat (n_states p) in
      mat_assign (repeat (repeat 0 n) n) (filter (fun e => e_time e =? t)%Z es)))
  end.

(** np.nonzero in row-major order together with the values, lines 136 and 146. *)
Fixpoint nonzero_row (t i j : Z) (row : list Q) : list entry :=
  match row with
  | [] => []
  | v :: r => if Qeq_bool v 0 then nonzero_row t i (j + 1) r else mkE t i j v :: nonzero_row t i (j + 1) r
  end.

Fixpoint nonzero_mat (t i : Z) (m : list (list Q)) : list entry :=
  match m with
  | [] => []
  | row :: r => nonzero_row t i 0 row ++ nonzero_mat t (i + 1) r
  end.

(** __setitem__, lines 126-150. *)
Definition sp_set (p : tpm) (k : key) (m : list (list Q)) : result tpm :=
  match k with
  | KOther => Err TypeError
  | KInt z =>
      bind (check_time p z) (fun t =>
      let n := Z.to_nat (n_states p) in
      if (length m =? n)%nat && forallb (fun row => length row =? n)%nat m then
        bind (entries p) (fun es =>
        Ok (with_entries p (filter (fun e => negb (e_time e =? t)%Z) es ++ nonzero_mat t 0 m)))
      else Err ValueError)
  end.

(** __iter__ / __next__, lines 152-164: the matrices of the times in order. *)
Definition sp_iter (p : tpm) : result (list (list (list Q))) :=
  mapM (fun i => sp_get p (KInt (Z.of_nat i))) (seq 0 (Z.to_nat (n_times p))).

(** np.unique. *)
Fixpoint uinsert (x : Z) (l : list Z) : list Z :=
  match l with
  | [] => [x]
  | y :: t => if (x <? y)%Z then x :: l else if (x =? y)%Z then l else y :: uinsert x t
  end.
Definition unique (l : list Z) : list Z := fold_right uinsert [] l.

(** return_inverse: position in the sorted unique values. *)
Fixpoint index_of (x : Z) (l : list Z) : nat :=
  match l with [] => 0%nat | y :: t => if (x =? y)%Z then 0%nat else S (index_of x t) end.

Definition isin (x : Z) (l : list Z) : bool := existsb (Z.eqb x) l.

(** sparse_monte_carlo, lines 166-207.  The recursion of line 194 is bounded by
    [fuel], standing for the interpreter's recursion limit. *)
Fixpoint sparse_mc (fuel : nat) (p : tpm) (time : Z) (states : list Z) (draws : list Q) : result (list Z) :=
  match fuel with
  | O => Err RecursionError
  | S fuel =>
      bind (check_time p time) (fun t =>
      let us := unique states in
      bind (entries p) (fun es =>
      let sel := filter (fun e => (e_time e =? t)%Z && isin (e_from e) us) es in
      let live s := isin s (map e_from sel) in
      match existsb (fun s => negb (live s)) states, dead_state p with
      | true, Some d => sparse_mc fuel p t (map (fun s => if live s then s else d) states) draws
      | _, _ =>
          let cdf := cumsum (map e_val sel) in
          mapM (fun sr => match nth_error (map e_to sel)
                              (searchsorted cdf (snd sr + inject_Z (Z.of_nat (index_of (fst sr) us)))) with
                          | Some j => Ok j
                          | None => Err IndexError
                          end) (combine states draws)
      end))
  end.

(** save and load, lines 209-238: the four arrays go through .npy files, which
    are taken to give back what was stored. *)
Definition sp_save (p : tpm) : list Z * list Z * list Z * list Q :=
  (t_times p, t_from p, t_to p, t_values p).

Definition sp_load (f : list Z * list Z * list Z * list Q) : result tpm :=
  let '(times, from, to, values) := f in sp_init times from to values None None None.
