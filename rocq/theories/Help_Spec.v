(** * Vocabulary for the statements about the helpers. *)

From Coq Require Import String List ZArith QArith Bool Arith.
From Verif Require Import Prelude SpecBase.
Import ListNotations.

Open Scope Q_scope.

(** The entry of a table of probabilities: time, active occupants, activity. *)
Definition chance (pdf : list (list (list Q))) (t n a : nat) (x : Q) : Prop :=
  exists m row, at_ pdf t m /\ at_ m n row /\ at_ row a x.

(** Square matrices of transitions, one per time of the day. *)
Definition square (k : nat) (pdf : list (list Q)) : Prop := List.length pdf = k /\ forall r, In r pdf -> List.length r = k.
Definition goes (pdf : list (list Q)) (a b : nat) : Prop := exists r x, at_ pdf a r /\ at_ r b x /\ ~ x == 0.

(** The time before, the last one before the first. *)
Definition before (n t : nat) : nat := match t with O => (n - 1)%nat | S k => k end.

(** State s can be arrived at for time t but not left then. *)
Definition stuck_at (pdfs : list (list (list Q))) (t s : nat) : Prop :=
  exists prev now, at_ pdfs (before (List.length pdfs) t) prev /\ at_ pdfs t now /\
    (exists a, goes prev a s) /\ ~ exists b, goes now s b.
